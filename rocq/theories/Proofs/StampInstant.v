(** Instants and their dates; what is read as a point in time. *)
From Coq Require Import List NArith ZArith Bool String Lia ZifyBool ZifyN.
From Verif Require Import Base.Ustr Base.UstrLemmas Model.Cls Model.Value Model.Calendar Model.TimeUtil Spec.VerifySpec Spec.TimeSpec Spec.ZoneSpec Spec.StampSpec
  Proofs.CalendarLemmas Proofs.DateLemmas Proofs.TimeLemmas Proofs.StampLemmas Proofs.ZoneLemmas Proofs.StampRead.
Import ListNotations.
Open Scope list_scope.
Open Scope N_scope.
Ltac Zify.zify_post_hook ::= idtac.

(** ** the instant *)
Lemma date_dim : forall y m d, calendar_date y m d -> (1 <= Z.of_N y <= 9999 /\ 1 <= Z.of_N m <= 12 /\ 1 <= Z.of_N d <= dim (Z.of_N y) (Z.of_N m))%Z.
Proof.
  intros y m d (Hy & Hd & H). split; [lia|].
  assert (M : (1 <= Z.of_N m <= 12)%Z) by (cbn [In] in H; lia). split; [exact M|]. split; [lia|].
  unfold dim. assert (L : leap_year y -> leapd (Z.of_N y) = 1%Z).
  { intro L. unfold leapd. replace (isleap (Z.of_N y)) with true; [reflexivity|]. symmetry. apply isleap_iff. unfold leap_year in L. unfold leap_z. lia. }
  pose proof (leapd_bound (Z.of_N y)) as B. cbn [In] in H.
  destruct H as [[Hm H]|[[Hm H]|[-> H]]].
  - repeat match type of Hm with _ \/ _ => destruct Hm as [<-|Hm]; [cbn; lia|] end. destruct Hm.
  - repeat match type of Hm with _ \/ _ => destruct Hm as [<-|Hm]; [cbn; lia|] end. destruct Hm.
  - change (mdays (Z.of_N 2)) with 28%Z. change (Z.of_N 2 =? 2)%Z with true. cbv iota. destruct H as [H|[-> H]]; [lia|]. rewrite (L H). lia.
Qed.
Lemma days_bounds : forall y m d, (1 <= y <= 9999 -> 1 <= m <= 12 -> 1 <= d <= dim y m -> -719162 <= epoch_days y m d <= 2932896)%Z.
Proof.
  intros y m d Hy Hm Hd.
  assert (A : (epoch_days 1 1 1 <= epoch_days y m d)%Z).
  { destruct (Z.eq_dec y 1); [destruct (Z.eq_dec m 1); [destruct (Z.eq_dec d 1); [subst; lia|]|]|]; apply Z.lt_le_incl; apply days_lt; try assumption; try lia; change (dim 1 1) with 31%Z; lia. }
  assert (B : (epoch_days y m d <= epoch_days 9999 12 31)%Z).
  { pose proof (dim_bound y m Hm) as Q.
    destruct (Z.eq_dec y 9999); [destruct (Z.eq_dec m 12); [destruct (Z.eq_dec d 31); [subst; lia|]|]|]; apply Z.lt_le_incl; apply days_lt; try assumption; try lia; change (dim 9999 12) with 31%Z; lia. }
  change (epoch_days 1 1 1) with (-719162)%Z in A. change (epoch_days 9999 12 31) with 2932896%Z in B. lia.
Qed.
Lemma shows_iff : forall z y m d h mi se, calendar_date y m d -> h <= 23 -> mi <= 59 -> se <= 59 ->
  (shows z y m d h mi se <-> z = seconds_of (Z.of_N y) (Z.of_N m) (Z.of_N d) (Z.of_N h) (Z.of_N mi) (Z.of_N se)).
Proof.
  intros z y m d h mi se C Hh Hmi Hs. destruct (date_dim _ _ _ C) as (Dy & Dm & Dd). unfold shows. split.
  - intro H. apply fields_secs in H. destruct H as [-> _]. symmetry. apply seconds_split.
  - intro E. rewrite seconds_split in E. destruct (gmtime_wf z) as [Wz Ez].
    destruct (fields_unique (gmtime_tm z) (mkTm (Z.of_N y) (Z.of_N m) (Z.of_N d) (Z.of_N h) (Z.of_N mi) (Z.of_N se) 0 0 0) Wz) as (F1 & F2 & F3 & F4 & F5 & F6).
    { constructor; cbn [tm_year tm_mon tm_mday tm_hour tm_min tm_sec]; lia. }
    { rewrite Ez. unfold secs. cbn [tm_year tm_mon tm_mday tm_hour tm_min tm_sec]. rewrite seconds_split. exact E. }
    cbn [tm_year tm_mon tm_mday tm_hour tm_min tm_sec] in F1, F2, F3, F4, F5, F6.
    pose proof (days_bounds _ _ _ Dy Dm Dd) as B.
    assert (I : int64 z = true) by (unfold int64; lia). assert (J : int32 (tm_year (gmtime_tm z) - 1900) = true) by (rewrite F1; unfold int32; lia).
    exists (gmtime_tm z). split; [unfold gmtime; rewrite I; cbv zeta; rewrite J; reflexivity|]. tauto.
Qed.
Lemma year_bounds : forall y m d, (1 <= m <= 12 -> 1 <= d <= dim y m -> -719162 <= epoch_days y m d <= 2932897 -> 1 <= y <= 10000)%Z.
Proof.
  intros y m d Hm Hd H. split.
  - apply (year_le 1 1 1 y m d); [lia|change (dim 1 1) with 31%Z; lia|exact Hm|exact Hd|]. change (epoch_days 1 1 1) with (-719162)%Z. lia.
  - apply (year_le y m d 10000 1 1); [exact Hm|exact Hd|lia|change (dim 10000 1) with 31%Z; lia|]. change (epoch_days 10000 1 1) with 2932897%Z. lia.
Qed.
Lemma gmtime_in : forall z, int64 z = true -> int32 (tm_year (gmtime_tm z) - 1900) = true -> gmtime z = Ok (gmtime_tm z).
Proof. intros z I J. unfold gmtime. rewrite I. cbv zeta. rewrite J. reflexivity. Qed.
Lemma wf_year : forall t z, wf t -> secs t = z -> (-62135596800 <= z <= 253402300800)%Z -> int32 (tm_year t - 1900) = true.
Proof.
  intros t z [W1 W2 W3 W4 W5] E Hz. unfold secs in E. rewrite seconds_split in E. pose proof (year_bounds _ _ _ W1 W2) as B. unfold int32. lia.
Qed.
Lemma in_int64 : forall z, (-62135596800 <= z <= 253402300800)%Z -> int64 z = true.
Proof. intros z H. unfold int64. lia. Qed.
Lemma gmtime_defined : forall z, (-62135596800 <= z <= 253402300800)%Z -> exists t, gmtime z = Ok t.
Proof.
  intros z Hz. destruct (gmtime_wf z) as [W E]. exists (gmtime_tm z). exact (gmtime_in z (in_int64 z Hz) (wf_year _ z W E Hz)).
Qed.

(** ** zone offsets *)
Lemma pair_dig : forall a b, is_digit a = true -> is_digit b = true -> [a; b] = dig2 (digit2 a b) /\ (0 <= digit2 a b < 100)%Z.
Proof.
  intros a b Ha Hb. apply is_digit_iff in Ha, Hb. split; [|unfold digit2; lia]. unfold dig2, dig, digit2. f_equal; [|f_equal].
  - rewrite (Z.mod_small (Z.of_N ((a - 48) * 10 + (b - 48)) / 10) 10).
    + replace (Z.of_N ((a - 48) * 10 + (b - 48)) / 10)%Z with (Z.of_N (a - 48)); [lia|].
      replace (Z.of_N ((a - 48) * 10 + (b - 48))) with (Z.of_N (b - 48) + Z.of_N (a - 48) * 10)%Z by lia. rewrite Z.div_add by lia. rewrite Z.div_small by lia. reflexivity.
    + split; [apply Z.div_pos; lia|]. apply Z.div_lt_upper_bound; lia.
  - replace (Z.of_N ((a - 48) * 10 + (b - 48))) with (Z.of_N (b - 48) + Z.of_N (a - 48) * 10)%Z by lia. rewrite Z.mod_add by lia. rewrite Z.mod_small by lia. lia.
Qed.
Lemma pair_sixty : forall a b, between 48 53 a = true -> is_digit b = true -> [a; b] = dig2 (digit2 a b) /\ (0 <= digit2 a b < 60)%Z.
Proof.
  intros a b Ha Hb. pose proof Ha as Ha'. apply between_iff in Ha'. destruct (pair_dig a b) as [E R]; [apply is_digit_iff; lia|exact Hb|].
  split; [exact E|]. apply is_digit_iff in Hb. unfold digit2. lia.
Qed.
Lemma colon_split : forall s c r, colon_off s = (c, r) -> s = (if c then [58] else []) ++ r.
Proof.
  intros [|x s] c r H; [injection H as <- <-; reflexivity|]. destruct (N.eq_dec x 58) as [->|Hx]; [injection H as <- <-; reflexivity|].
  assert (E : colon_off (x :: s) = (false, x :: s)); [|rewrite E in H; injection H as <- <-; reflexivity].
  clear H. unfold colon_off. destruct x as [|p]; [reflexivity|]. do 6 (destruct p as [p|p|]; try reflexivity). congruence.
Qed.
Lemma zone_sum_inv : forall sg h m s off, (0 <= h)%Z -> (0 <= m)%Z -> (0 <= s)%Z -> zone_sum sg h m s = Ok off ->
  (h < 24)%Z /\ off = (if (sg =? 45)%N then - (h * 3600 + m * 60 + s) else h * 3600 + m * 60 + s)%Z.
Proof. intros sg h m s off Hh Hm Hs H. unfold zone_sum in H. cbv zeta in H. destruct (h * 3600 + m * 60 + s <? 86400)%Z eqn:E; [|discriminate]. injection H as <-. split; [lia|reflexivity]. Qed.
Lemma colon_text : forall c : bool, (if c then [58] else []) = [] \/ (if c then [58] else []) = u ":".
Proof. intros [|]; auto. Qed.
Lemma parse_zone_long : forall sg a b r, parse_zone (sg :: a :: b :: r) =
  if ((sg =? 43) || (sg =? 45))%N && is_digit a && is_digit b then
        let (c1, r) := colon_off r in
        match r with
        | m1 :: m2 :: r =>
            if between 48 53 m1 && is_digit m2 then
              match r with
              | [] => zone_sum sg (digit2 a b) (digit2 m1 m2) 0
              | _ =>
                  let (c2, r) := colon_off r in
                  match r with
                  | s1 :: s2 :: r =>
                      if between 48 53 s1 && is_digit s2 then
                        match r with
                        | [] => if Bool.eqb c1 c2 then zone_sum sg (digit2 a b) (digit2 m1 m2) (digit2 s1 s2)
                                else Err EValueError
                        | 46%N :: _ => Err OutOfModel
                        | _ => Err EValueError
                        end
                      else Err EValueError
                  | _ => Err EValueError
                  end
              end
            else Err EValueError
        | _ => Err EValueError
        end
      else Err EValueError.
Proof. intros sg a b r. unfold parse_zone. destruct sg as [|p]; [reflexivity|]. do 7 (destruct p as [p|p|]; try reflexivity). Qed.
Lemma parse_zone_inv : forall r off, parse_zone r = Ok off -> zone_offset r off.
Proof.
  intros r off H. destruct r as [|sg [|a [|b r]]]; [discriminate| | |].
  - destruct (N.eq_dec sg 90) as [->|Hs]; [injection H as <-; exact zone_utc|]. exfalso.
    unfold parse_zone in H. destruct sg as [|p]; [discriminate|]. do 7 (destruct p as [p|p|]; try discriminate). congruence.
  - exfalso. unfold parse_zone in H. destruct sg as [|p]; [discriminate|]. do 7 (destruct p as [p|p|]; try discriminate).
  - rewrite parse_zone_long in H.
    destruct ((sg =? 43) || (sg =? 45)) eqn:Es; [|discriminate]. destruct (is_digit a) eqn:Da; [|discriminate]. destruct (is_digit b) eqn:Db; [|discriminate]. cbn [andb] in H.
    assert (Hs : sg = 43 \/ sg = 45) by lia. destruct (pair_dig a b Da Db) as [Eh Rh].
    destruct (colon_off r) as [c1 r1] eqn:C1. apply colon_split in C1. subst r.
    destruct r1 as [|m1 [|m2 r1]]; [discriminate|discriminate|].
    destruct (between 48 53 m1) eqn:Dm1; [|discriminate]. destruct (is_digit m2) eqn:Dm2; [|discriminate]. cbn [andb] in H.
    destruct (pair_sixty m1 m2 Dm1 Dm2) as [Em Rm].
    destruct r1 as [|x r1].
    + apply zone_sum_inv in H; [|lia..]. destruct H as [Hh ->].
      change (sg :: a :: b :: (if c1 then [58] else []) ++ [m1; m2]) with (sg :: [a; b] ++ (if c1 then [58] else []) ++ [m1; m2]). rewrite Eh, Em.
      apply zone_hm; [exact Hs|apply colon_text|lia|exact Rm].
    + destruct (colon_off (x :: r1)) as [c2 r2] eqn:C2. apply colon_split in C2. rewrite C2. clear C2 x r1.
      destruct r2 as [|s1 [|s2 r2]]; [discriminate|discriminate|].
      destruct (between 48 53 s1) eqn:Ds1; [|discriminate]. destruct (is_digit s2) eqn:Ds2; [|discriminate]. cbn [andb] in H.
      destruct (pair_sixty s1 s2 Ds1 Ds2) as [Ese Rse].
      destruct r2 as [|x r2]; [|exfalso; destruct x as [|p]; [discriminate|]; do 6 (destruct p as [p|p|]; try discriminate)].
      destruct (Bool.eqb c1 c2) eqn:Ec; [|discriminate]. apply eqb_prop in Ec. subst c2.
      apply zone_sum_inv in H; [|lia..]. destruct H as [Hh ->].
      change (sg :: a :: b :: (if c1 then [58] else []) ++ m1 :: m2 :: (if c1 then [58] else []) ++ [s1; s2])
        with (sg :: [a; b] ++ (if c1 then [58] else []) ++ [m1; m2] ++ (if c1 then [58] else []) ++ [s1; s2]). rewrite Eh, Em, Ese.
      apply zone_hms; [exact Hs|apply colon_text|lia|exact Rm|exact Rse].
Qed.
Lemma zone_first : forall zt off, zone_offset zt off -> exists c q, zt = c :: q /\ (c = 43 \/ c = 45 \/ c = 90).
Proof.
  intros zt off H. destruct H as [|sg c h m Hs Hc Hh Hm|sg c h m s Hs Hc Hh Hm Hse]; [exists 90, []; auto|..]; do 2 eexists; (split; [reflexivity|tauto]).
Qed.
Lemma zone_ascii : forall zt off, zone_offset zt off -> forallb is_ascii zt = true.
Proof.
  assert (D : forall h, forallb is_ascii (dig2 h) = true). { intro h. unfold dig2. cbn [forallb]. pose proof (dig_range (h / 10)). pose proof (dig_range h). unfold is_ascii. lia. }
  assert (C : forall c, c = [] \/ c = u ":" -> forallb is_ascii c = true) by (intros c [->| ->]; reflexivity).
  assert (G : forall sg, sg = 43 \/ sg = 45 -> is_ascii sg = true) by (intros sg [->| ->]; reflexivity).
  intros zt off H. destruct H as [|sg c h m Hs Hc Hh Hm|sg c h m s Hs Hc Hh Hm Hse]; [reflexivity|..];
    cbn [forallb]; rewrite (G _ Hs); rewrite !forallb_app, !D, (C _ Hc); reflexivity.
Qed.

