(** The calendar: gmtime and seconds_of are inverse to each other, gmtime keeps the order. *)
From Coq Require Import List NArith ZArith Bool String Lia ZifyBool.
From Verif Require Import Base.Ustr Model.Value Model.Verify Model.TimeUtil Spec.TimeSpec.
Import ListNotations.
Open Scope list_scope.
Open Scope Z_scope.
Ltac Zify.zify_post_hook ::= Z.div_mod_to_equations.

Definition dim (y m : Z) : Z := mdays m + (if m =? 2 then leapd y else 0).

Lemma isleap_iff : forall y, isleap y = true <-> leap_z y.
Proof. intro y. unfold isleap, leap_z. lia. Qed.

Ltac tab := cbn [mdays dbm0 Z.eqb Pos.eqb Z.ltb Z.compare Pos.compare Pos.compare_cont].
Lemma months : forall m, 1 <= m <= 12 -> In m [1; 2; 3; 4; 5; 6; 7; 8; 9; 10; 11; 12].
Proof. intros m H. cbn [In]. lia. Qed.
Ltac each_month H := apply months in H; cbn [In] in H; destruct H as [<-|[<-|[<-|[<-|[<-|[<-|[<-|[<-|[<-|[<-|[<-|[<-|[]]]]]]]]]]]]].

Lemma leapd_bound : forall y, 0 <= leapd y <= 1.
Proof. intro y. unfold leapd. destruct (isleap y); lia. Qed.

Lemma month_length_iff : forall y m l, 1 <= m <= 12 -> (month_length y m l <-> l = dim y m).
Proof.
  intros y m l H. unfold month_length, dim, leapd. pose proof (isleap_iff y) as L.
  assert (HL : (isleap y = true /\ leap_z y) \/ (isleap y = false /\ ~ leap_z y)).
  { destruct (isleap y); [left; tauto|right]. split; [reflexivity|]. intro G. apply L in G. discriminate. }
  clear L. set (P := leap_z y) in *. clearbody P. destruct HL as [[-> HL]|[-> HL]].
  all: each_month H; cbn [In mdays Z.eqb Pos.eqb Z.add]; split; intro G; intuition (try discriminate; try lia).
Qed.

Lemma dim_bound : forall y m, 1 <= m <= 12 -> 28 <= dim y m <= 31.
Proof.
  intros y m H. pose proof (leapd_bound y). unfold dim. each_month H; tab; lia.
Qed.

Lemma dbm_next : forall y m, 1 <= m <= 11 -> days_before_month y (m + 1) = days_before_month y m + dim y m.
Proof.
  intros y m H. assert (H' : 1 <= m <= 12) by lia. unfold days_before_month, dim.
  each_month H'; try lia;
  match goal with |- context [dbm0 (?a + 1)] => let b := eval compute in (a + 1) in change (a + 1) with b end; tab; lia.
Qed.
Lemma dbm_last : forall y, days_before_month y 12 + dim y 12 = 365 + leapd y.
Proof. intro y. unfold days_before_month, dim. tab. lia. Qed.
Lemma dbm_first : forall y, days_before_month y 1 = 0.
Proof. reflexivity. Qed.

Lemma dby_next : forall y, days_before_year (y + 1) = days_before_year y + 365 + leapd y.
Proof.
  intro y. unfold days_before_year, leapd, isleap. 
  destruct ((y mod 4 =? 0) && (negb (y mod 100 =? 0) || (y mod 400 =? 0))) eqn:E; lia.
Qed.

Lemma dby_mono : forall y y', y < y' -> days_before_year y + 365 + leapd y <= days_before_year y'.
Proof.
  intros y y' H.
  assert (G : forall n : nat, days_before_year y + 365 + leapd y <= days_before_year (y + 1 + Z.of_nat n)).
  { intro n. induction n as [|n IH].
    - replace (y + 1 + Z.of_nat 0) with (y + 1) by lia. pose proof (dby_next y). lia.
    - replace (y + 1 + Z.of_nat (S n)) with (y + 1 + Z.of_nat n + 1) by lia.
      rewrite dby_next. pose proof (leapd_bound (y + 1 + Z.of_nat n)). lia. }
  specialize (G (Z.to_nat (y' - y - 1))). replace (y + 1 + Z.of_nat (Z.to_nat (y' - y - 1))) with y' in G by lia. exact G.
Qed.

Lemma year_of_spec : forall n y doy, year_of n = (y, doy) ->
  days_before_year y + doy = n /\ 0 <= doy < 365 + leapd y.
Proof.
  intros n y doy H. unfold year_of in H. cbv beta zeta in H.
  set (a := n / 146097) in *. set (r := n mod 146097) in *.
  assert (Hn : n = 146097 * a + r /\ 0 <= r < 146097) by (subst a r; lia). clearbody a r.
  set (b := Z.min 3 (r / 36524)) in *. set (r2 := r - 36524 * b) in *.
  assert (Hb : 0 <= b <= 3 /\ 0 <= r2 /\ (b < 3 -> r2 < 36524) /\ (b = 3 -> r2 <= 36524)) by (subst b r2; lia).
  set (c := r2 / 1461) in *. set (r3 := r2 mod 1461) in *.
  assert (Hc : r2 = 1461 * c + r3 /\ 0 <= r3 < 1461) by (subst c r3; lia).
  assert (Hr : r = 36524 * b + r2) by (subst r2; lia). clearbody b r2 c r3.
  set (e := Z.min 3 (r3 / 365)) in *. set (q := r3 - 365 * e) in *.
  assert (He : 0 <= e <= 3 /\ 0 <= q /\ (e < 3 -> q < 365) /\ (e = 3 -> q <= 365)) by (subst e q; lia).
  assert (Hq : r3 = 365 * e + q) by (subst q; lia). clearbody e q.
  apply pair_equal_spec in H. destruct H as [<- <-].
  assert (Hc' : 0 <= c <= 24) by lia.
  set (p := 400 * a + 100 * b + 4 * c + e) in *.
  assert (P4 : p / 4 = 100 * a + 25 * b + c) by (subst p; lia).
  assert (P100 : p / 100 = 4 * a + b) by (subst p; lia).
  assert (P400 : p / 400 = a) by (subst p; lia).
  assert (D : days_before_year (p + 1) = 146097 * a + 36524 * b + 1461 * c + 365 * e).
  { unfold days_before_year. replace (p + 1 - 1) with p by lia. rewrite P4, P100, P400. subst p. lia. }
  split.
  - rewrite D. lia.
  - split; [lia|]. destruct (Z.eq_dec q 365) as [Eq|Ne]; [|pose proof (leapd_bound (p + 1)); lia].
    assert (e = 3) by lia. subst e.
    assert (L : isleap (p + 1) = true).
    { apply isleap_iff. unfold leap_z. 
      assert ((p + 1) mod 4 = 0) by (subst p; lia).
      split; [assumption|]. destruct (Z.eq_dec c 24) as [Ec|Nc].
      - right. assert (b = 3) by lia. subst p. subst b c. lia.
      - left. subst p. lia. }
    unfold leapd. rewrite L. lia.
Qed.

Lemma count_cons : forall (f : Z -> bool) x l,
  Z.of_nat (List.length (filter f (x :: l))) = (if f x then 1 else 0) + Z.of_nat (List.length (filter f l)).
Proof. intros f x l. cbn [filter]. destruct (f x); cbn [List.length]; lia. Qed.

Lemma month_of_spec : forall y doy, 0 <= doy < 365 + leapd y ->
  1 <= month_of y doy <= 12 /\
  days_before_month y (month_of y doy) <= doy < days_before_month y (month_of y doy) + dim y (month_of y doy).
Proof.
  intros y doy H. pose proof (leapd_bound y) as L. unfold month_of. rewrite !count_cons.
  unfold days_before_month, dim. set (l := leapd y) in *. clearbody l. cbn [filter List.length]. 
  change (Z.of_nat 0) with 0.
  assert (G : exists m, 1 <= m <= 12 /\
     dbm0 m + (if 2 <? m then l else 0) <= doy < dbm0 m + (if 2 <? m then l else 0) + (mdays m + (if m =? 2 then l else 0))).
  { destruct (Z.ltb_spec doy 31); [exists 1; tab; lia|].
    destruct (Z.ltb_spec doy (59 + l)); [exists 2; tab; lia|].
    destruct (Z.ltb_spec doy (90 + l)); [exists 3; tab; lia|].
    destruct (Z.ltb_spec doy (120 + l)); [exists 4; tab; lia|].
    destruct (Z.ltb_spec doy (151 + l)); [exists 5; tab; lia|].
    destruct (Z.ltb_spec doy (181 + l)); [exists 6; tab; lia|].
    destruct (Z.ltb_spec doy (212 + l)); [exists 7; tab; lia|].
    destruct (Z.ltb_spec doy (243 + l)); [exists 8; tab; lia|].
    destruct (Z.ltb_spec doy (273 + l)); [exists 9; tab; lia|].
    destruct (Z.ltb_spec doy (304 + l)); [exists 10; tab; lia|].
    destruct (Z.ltb_spec doy (334 + l)); [exists 11; tab; lia|exists 12; tab; lia]. }
  destruct G as [m [Hm G]].
  match goal with |- 1 <= ?x <= 12 /\ _ => assert (E : x = m) end; [|rewrite E; split; assumption].
  revert G. each_month Hm; tab; intro G;
  repeat match goal with
  | |- context [if ?a <=? doy then _ else _] => destruct (Z.leb_spec a doy); [|exfalso; lia]
  | |- context [if ?a <=? doy then _ else _] => destruct (Z.leb_spec a doy); [exfalso; lia|]
  end; reflexivity.
Qed.

(** valid fields *)
Record wf (t : tm) : Prop := {
  w_mon : 1 <= tm_mon t <= 12;
  w_day : 1 <= tm_mday t <= dim (tm_year t) (tm_mon t);
  w_hour : 0 <= tm_hour t < 24;
  w_min : 0 <= tm_min t < 60;
  w_sec : 0 <= tm_sec t < 60 }.
Definition secs (t : tm) : Z := seconds_of (tm_year t) (tm_mon t) (tm_mday t) (tm_hour t) (tm_min t) (tm_sec t).

Lemma gmtime_wf : forall z, wf (gmtime_tm z) /\ secs (gmtime_tm z) = z.
Proof.
  intro z. unfold gmtime_tm. destruct (year_of (z / 86400 + 719162)) as [y doy] eqn:E.
  apply year_of_spec in E. destruct E as [E1 E2]. pose proof (month_of_spec _ _ E2) as [M1 M2].
  set (m := month_of y doy) in *. clearbody m.
  split.
  - constructor; cbn; lia.
  - unfold secs, seconds_of, epoch_days. cbn [tm_year tm_mon tm_mday tm_hour tm_min tm_sec].
    set (a := days_before_year y) in *. set (b := days_before_month y m) in *. clearbody a b. clear M1 M2 m.
    lia.
Qed.

(** the order of dates *)
Lemma dbm_mono : forall y m m', 1 <= m -> m < m' -> m' <= 12 -> days_before_month y m + dim y m <= days_before_month y m'.
Proof.
  intros y m m' H1 H H2.
  assert (G : forall n : nat, m + 1 + Z.of_nat n <= 12 -> days_before_month y m + dim y m <= days_before_month y (m + 1 + Z.of_nat n)).
  { intro n. induction n as [|n IH]; intro Hn.
    - replace (m + 1 + Z.of_nat 0) with (m + 1) by lia. rewrite dbm_next by lia. lia.
    - replace (m + 1 + Z.of_nat (S n)) with (m + 1 + Z.of_nat n + 1) by lia.
      rewrite dbm_next by lia. pose proof (dim_bound y (m + 1 + Z.of_nat n)). lia. }
  specialize (G (Z.to_nat (m' - m - 1))). replace (m + 1 + Z.of_nat (Z.to_nat (m' - m - 1))) with m' in G by lia. apply G. lia.
Qed.
Lemma dbm_range : forall y m, 1 <= m <= 12 -> 0 <= days_before_month y m /\ days_before_month y m + dim y m <= 365 + leapd y.
Proof.
  intros y m H. pose proof (leapd_bound y). unfold days_before_month, dim. each_month H; tab; lia.
Qed.

Lemma days_lt : forall y m d y' m' d',
  1 <= m <= 12 -> 1 <= d <= dim y m -> 1 <= m' <= 12 -> 1 <= d' <= dim y' m' ->
  y < y' \/ (y = y' /\ (m < m' \/ (m = m' /\ d < d'))) -> epoch_days y m d < epoch_days y' m' d'.
Proof.
  intros y m d y' m' d' Hm Hd Hm' Hd' H. unfold epoch_days. destruct H as [H|[<- [H|[<- H]]]].
  - pose proof (dby_mono _ _ H). pose proof (dbm_range y m Hm). pose proof (dbm_range y' m' Hm'). lia.
  - pose proof (dbm_mono y m m'). lia.
  - lia.
Qed.

Lemma seconds_split : forall y m d h mi s, seconds_of y m d h mi s = epoch_days y m d * 86400 + h * 3600 + mi * 60 + s.
Proof. intros. unfold seconds_of, epoch_days. lia. Qed.

Lemma lex_secs : forall a b, wf a -> wf b -> lex_lt [tm_year a; tm_mon a; tm_mday a; tm_hour a; tm_min a; tm_sec a]
  [tm_year b; tm_mon b; tm_mday b; tm_hour b; tm_min b; tm_sec b] = true -> secs a < secs b.
Proof.
  intros a b [A1 A2 A3 A4 A5] [B1 B2 B3 B4 B5] H. unfold secs. rewrite !seconds_split.
  assert (G : (tm_year a < tm_year b \/ (tm_year a = tm_year b /\ (tm_mon a < tm_mon b \/ (tm_mon a = tm_mon b /\ tm_mday a < tm_mday b)))) \/
    (tm_year a = tm_year b /\ tm_mon a = tm_mon b /\ tm_mday a = tm_mday b /\
     lex_lt [tm_hour a; tm_min a; tm_sec a] [tm_hour b; tm_min b; tm_sec b] = true)).
  { cbn [lex_lt] in H. destruct (Z.eqb_spec (tm_year a) (tm_year b)); [|left; left; lia].
    destruct (Z.eqb_spec (tm_mon a) (tm_mon b)); [|left; right; lia].
    destruct (Z.eqb_spec (tm_mday a) (tm_mday b)); [right; repeat split; assumption|left; right; lia]. }
  destruct G as [G|[-> [-> [-> G]]]].
  - pose proof (days_lt _ _ _ _ _ _ A1 A2 B1 B2 G). lia.
  - cbn [lex_lt] in G. destruct (Z.eqb_spec (tm_hour a) (tm_hour b)); [|lia].
    destruct (Z.eqb_spec (tm_min a) (tm_min b)); [|lia]. destruct (Z.eqb_spec (tm_sec a) (tm_sec b)); [discriminate|lia].
Qed.

Lemma lex_total : forall a b, List.length a = List.length b -> lex_lt a b = true \/ a = b \/ lex_lt b a = true.
Proof.
  induction a as [|x a IH]; intros [|y b] H; try discriminate; [auto|].
  injection H as H. cbn [lex_lt]. destruct (IH b H) as [G|[->|G]].
  all: destruct (Z.eqb_spec x y); destruct (Z.eqb_spec y x); try lia; subst; auto.
  all: destruct (Z.ltb_spec x y); destruct (Z.ltb_spec y x); auto; lia.
Qed.
Lemma lex_irrefl : forall a, lex_lt a a = false.
Proof. induction a as [|x a IH]; [reflexivity|]. cbn. rewrite Z.eqb_refl. assumption. Qed.
Lemma lex_asym : forall a b, lex_lt a b = true -> lex_lt b a = false.
Proof.
  induction a as [|x a IH]; intros [|y b] H; try discriminate; [reflexivity|]. cbn in *.
  destruct (Z.eqb_spec x y); destruct (Z.eqb_spec y x); try lia; auto.
Qed.
Lemma lex_app : forall a b c d, List.length a = List.length b -> lex_lt a b = true -> lex_lt (a ++ c) (b ++ d) = true.
Proof.
  induction a as [|x a IH]; intros [|y b] c d L H; try discriminate. injection L as L. cbn in *.
  destruct (x =? y); auto.
Qed.

Definition fields (t : tm) : list Z := [tm_year t; tm_mon t; tm_mday t; tm_hour t; tm_min t; tm_sec t].
Lemma tm_list_split : forall t, tm_list t = fields t ++ [tm_wday t; tm_yday t; tm_isdst t].
Proof. reflexivity. Qed.
Lemma secs_lt : forall x y, wf x -> wf y -> secs x < secs y -> tm_lt x y = true.
Proof.
  intros x y Wa Wb H. unfold tm_lt. rewrite !tm_list_split.
  apply lex_app; [reflexivity|].
  destruct (lex_total (fields x) (fields y)) as [G|[G|G]]; [reflexivity|assumption| |].
  - exfalso. assert (E : secs x = secs y).
    { unfold fields in G. injection G as G1 G2 G3 G4 G5 G6. unfold secs. congruence. }
    rewrite E in H. exact (Z.lt_irrefl _ H).
  - apply lex_secs in G; [lia|assumption|assumption].
Qed.
Lemma gmtime_lt : forall a b, a < b -> tm_lt (gmtime_tm a) (gmtime_tm b) = true.
Proof.
  intros a b H. destruct (gmtime_wf a) as [Wa Ea]. destruct (gmtime_wf b) as [Wb Eb].
  apply secs_lt; [assumption|assumption|]. rewrite Ea, Eb. assumption.
Qed.
Lemma gmtime_order : forall a b, tm_lt (gmtime_tm a) (gmtime_tm b) = (a <? b).
Proof.
  intros a b. destruct (Z.ltb_spec a b) as [H|H].
  - apply gmtime_lt. assumption.
  - destruct (Z.eq_dec a b) as [->|N]; [apply lex_irrefl|]. apply lex_asym. apply gmtime_lt. lia.
Qed.

(** seconds determine the fields *)
Lemma fields_unique : forall a b, wf a -> wf b -> secs a = secs b ->
  tm_year a = tm_year b /\ tm_mon a = tm_mon b /\ tm_mday a = tm_mday b /\
  tm_hour a = tm_hour b /\ tm_min a = tm_min b /\ tm_sec a = tm_sec b.
Proof.
  intros a b Wa Wb H.
  destruct (lex_total [tm_year a; tm_mon a; tm_mday a; tm_hour a; tm_min a; tm_sec a]
    [tm_year b; tm_mon b; tm_mday b; tm_hour b; tm_min b; tm_sec b]) as [G|[G|G]]; [reflexivity| | |].
  - apply lex_secs in G; [lia|assumption|assumption].
  - injection G as G1 G2 G3 G4 G5 G6. tauto.
  - apply lex_secs in G; [lia|assumption|assumption].
Qed.

Lemma gmtime_ok : forall z t, gmtime z = Ok t -> t = gmtime_tm z.
Proof.
  intros z t H. unfold gmtime in H. destruct (int64 z); [|discriminate]. cbv zeta in H.
  destruct (int32 _); [|discriminate]. congruence.
Qed.

(** gmtime goes through the calendar day by day *)
Lemma gmtime_epoch : gmtime_tm 0 = mkTm 1970 1 1 0 0 0 3 1 0.
Proof. vm_compute. reflexivity. Qed.
Lemma tomorrow : forall t n, wf t -> wf n -> secs n = secs t + 86400 ->
  next_date (tm_year t) (tm_mon t) (tm_mday t) (tm_year n, tm_mon n, tm_mday n) /\
  tm_hour n = tm_hour t /\ tm_min n = tm_min t /\ tm_sec n = tm_sec t.
Proof.
  intros t n Wt Wn En.
  pose proof (w_mon _ Wt) as Hm. pose proof (w_day _ Wt) as Hd.
  set (l := dim (tm_year t) (tm_mon t)) in *.
  set (n' := if tm_mday t <? l then (tm_year t, tm_mon t, tm_mday t + 1)
             else if tm_mon t <? 12 then (tm_year t, tm_mon t + 1, 1) else (tm_year t + 1, 1, 1)).
  assert (G : exists y m d, n' = (y, m, d) /\ 1 <= m <= 12 /\ 1 <= d <= dim y m /\ epoch_days y m d = epoch_days (tm_year t) (tm_mon t) (tm_mday t) + 1).
  { subst n'. destruct (Z.ltb_spec (tm_mday t) l); [|destruct (Z.ltb_spec (tm_mon t) 12)].
    - do 3 eexists. split; [reflexivity|]. split; [lia|]. split; [subst l; lia|]. unfold epoch_days. lia.
    - do 3 eexists. split; [reflexivity|]. split; [lia|]. split; [pose proof (dim_bound (tm_year t) (tm_mon t + 1)); lia|].
      unfold epoch_days. rewrite dbm_next by lia. subst l. lia.
    - do 3 eexists. split; [reflexivity|]. split; [lia|]. split; [pose proof (dim_bound (tm_year t + 1) 1); lia|].
      unfold epoch_days. rewrite dby_next, dbm_first. assert (tm_mon t = 12) as E12 by lia. subst l. rewrite E12 in *.
      pose proof (dbm_last (tm_year t)). lia. }
  destruct G as [y [m [d [G0 [G1 [G2 G3]]]]]].
  set (t' := mkTm y m d (tm_hour t) (tm_min t) (tm_sec t) 0 0 0).
  assert (W' : wf t') by (destruct Wt; constructor; cbn; assumption).
  assert (S' : secs t' = secs n).
  { rewrite En. unfold secs in *. rewrite !seconds_split in *. cbn [t' tm_year tm_mon tm_mday tm_hour tm_min tm_sec]. rewrite G3. lia. }
  destruct (fields_unique _ _ W' Wn S') as [F1 [F2 [F3 [F4 [F5 F6]]]]]. cbn in F1, F2, F3, F4, F5, F6.
  split; [|split; [symmetry; assumption|split; symmetry; assumption]].
  exists l. split; [apply month_length_iff; [assumption|reflexivity]|]. fold n'. rewrite G0. congruence.
Qed.

Lemma gmtime_tomorrow : forall z, 
  next_date (tm_year (gmtime_tm z)) (tm_mon (gmtime_tm z)) (tm_mday (gmtime_tm z))
    (tm_year (gmtime_tm (z + 86400)), tm_mon (gmtime_tm (z + 86400)), tm_mday (gmtime_tm (z + 86400))) /\
  tm_hour (gmtime_tm (z + 86400)) = tm_hour (gmtime_tm z) /\
  tm_min (gmtime_tm (z + 86400)) = tm_min (gmtime_tm z) /\ tm_sec (gmtime_tm (z + 86400)) = tm_sec (gmtime_tm z).
Proof.
  intro z. destruct (gmtime_wf z) as [Wt Et]. destruct (gmtime_wf (z + 86400)) as [Wn En].
  apply tomorrow; [assumption|assumption|]. rewrite Et, En. reflexivity.
Qed.
