(** C55-C60, C81, C82: time_util.py. *)
From Coq Require Import List NArith ZArith Bool String.
From Verif Require Import Base.Ustr Model.Value Model.TimeUtil Spec.TimeSpec Proofs.CalendarLemmas Proofs.TimeLemmas.
Import ListNotations.
Open Scope list_scope.
Open Scope Z_scope.

(** ** C55 *)
Theorem C55_euclid : forall a b, 0 < b ->
  exists q r, fq a b 0 = Ok q /\ modulo a b 0 = Ok r /\ a = b * q + r /\ 0 <= r < b.
Proof. exact euclid. Qed.
Print Assumptions C55_euclid.
Example C55_ex : fq (-61) 60 0 = Ok (-2) /\ modulo (-61) 60 0 = Ok 59.
Proof. vm_compute. auto. Qed.

(** The interval form.  Missing: intervals that end in 0, for which the optional argument counts as absent. *)
Theorem C55_interval_partial : forall a lo hi, lo < hi -> hi <> 0 ->
  exists q r, fq a lo hi = Ok q /\ modulo a lo hi = Ok r /\ lo <= r < hi /\ a - lo = (hi - lo) * q + (r - lo).
Proof. exact interval. Qed.
Print Assumptions C55_interval_partial.
Example C55_interval_ex : fq 0 1 13 = Ok (-1) /\ modulo 0 1 13 = Ok 12 /\ fq 25 1 13 = Ok 2 /\ modulo 25 1 13 = Ok 1.
Proof. vm_compute. auto. Qed.
Theorem C55_interval_to_zero_refuted : exists a lo hi q r, lo < hi /\ fq a lo hi = Ok q /\ modulo a lo hi = Ok r /\
  ~ (lo <= r < hi /\ a - lo = (hi - lo) * q + (r - lo)).
Proof.
  exists (-5), (-5), 0, 1, 0. split; [reflexivity|]. split; [reflexivity|]. split; [reflexivity|].
  intros [[_ H] _]. discriminate.
Qed.
Print Assumptions C55_interval_to_zero_refuted.

(** ** C56: all six components, and any of them left out.  Missing: a duration with minutes and
    without months. *)
Theorem C56_parse_duration_partial : forall pos y mo d h mi s,
  some_of [y; mo; d; h; mi; s] = true -> mo <> None \/ mi = None ->
  parse_duration (duration_text pos y mo d h mi s)
  = Ok (pos, mkDur (num y) (num mo) (num d) (num h) (num mi) (DInt (num s))).
Proof. exact parse_text. Qed.
Print Assumptions C56_parse_duration_partial.
Example C56_ex : duration_text false (Some 1%N) (Some 2%N) (Some 3%N) None (Some 14%N) (Some 5%N) = u "-P1Y2M3DT14M5S" /\
  duration_text true None None (Some 3%N) (Some 14%N) None None = u "P3DT14H" /\
  parse_duration (u "P3DT14H") = Ok (true, mkDur 0 0 3 14 0 (DInt 0)).
Proof. vm_compute. auto. Qed.
(** PT5M: the months are looked for before the T is reached *)
Theorem C56_minutes_only_refuted : exists y mo d h mi s, some_of [y; mo; d; h; mi; s] = true /\
  parse_duration (duration_text true y mo d h mi s)
  <> Ok (true, mkDur (num y) (num mo) (num d) (num h) (num mi) (DInt (num s))).
Proof. exists None, None, None, None, (Some 5%N), None. split; [reflexivity|]. vm_compute. discriminate. Qed.
Print Assumptions C56_minutes_only_refuted.
(** P1DT5M is read as an error too, P1DT0H5M as well *)
Example C56_minutes : parse_duration (u "PT5M") = Err ETimeUtilError /\ parse_duration (u "P1DT0H5M") = Err ETimeUtilError.
Proof. vm_compute. auto. Qed.

(** ** C57: the years and months are added to the date, the days, hours, minutes and seconds to
    the instant.  Missing: durations without days or with more days than the month has, times that
    reach 60 hours, and dates that do not exist in the month reached. *)
Theorem C57_add_duration_partial : forall t z1 y1 m1 Y M D h mi s l t' text,
  has_fields z1 y1 m1 (tm_mday t) (tm_hour t) (tm_min t) (tm_sec t) ->
  12 * y1 + m1 = 12 * (tm_year t + Y) + tm_mon t + M ->
  parse_duration text = Ok (true, mkDur Y M D h mi (DInt s)) ->
  0 <= h -> 0 <= mi -> 0 <= s ->
  month_length y1 m1 l -> 1 <= D <= l ->
  (tm_hour t + h) * 3600 + (tm_min t + mi) * 60 + tm_sec t + s < 216000 ->
  gmtime (z1 + D * 86400 + h * 3600 + mi * 60 + s) = Ok t' -> tm_year t' <= 2147483647 ->
  exists k, forall n, (k <= n)%nat -> add_duration n t text = Ok (Some t').
Proof. exact add_ok. Qed.
Print Assumptions C57_add_duration_partial.
(** 2020-01-31T23:59:59 plus one month less ... a day and 30 hours over the end of February *)
Example C57_ex : exists t t', gmtime 1580342399 = Ok t /\ has_fields 1583020799 2020 2 29 23 59 59 /\
  (tm_year t, tm_mon t, tm_mday t) = (2020, 1, 29) /\
  month_length 2020 2 29 /\ parse_duration (u "P1M1DT30H") = Ok (true, mkDur 0 1 1 30 0 (DInt 0)) /\
  gmtime (1583020799 + 86400 + 30 * 3600) = Ok t' /\
  add_duration 5 t (u "P1M1DT30H") = Ok (Some t') /\ (tm_mon t', tm_mday t', tm_hour t') = (3, 3, 5).
Proof.
  do 2 eexists. split; [vm_compute; reflexivity|]. split; [eexists; split; [vm_compute; reflexivity|]; vm_compute; tauto|].
  split; [vm_compute; reflexivity|]. split; [right; right; split; [reflexivity|left; vm_compute; split; [|reflexivity]; split; [reflexivity|left; discriminate]]|].
  split; [vm_compute; reflexivity|]. split; [vm_compute; reflexivity|]. vm_compute. auto.
Qed.
(** a duration of one hour adds a day and an hour; one of 40 days adds 31; 60 hours are a day *)
Theorem C57_one_hour_refuted : exists t t', gmtime 0 = Ok t /\ gmtime 3600 = Ok t' /\
  parse_duration (u "PT1H") = Ok (true, mkDur 0 0 0 1 0 (DInt 0)) /\
  forall n, add_duration (S n) t (u "PT1H") <> Ok (Some t') /\
            exists w, gmtime (3600 + 86400) = Ok w /\ add_duration (S n) t (u "PT1H") = Ok (Some w).
Proof.
  do 2 eexists. split; [vm_compute; reflexivity|]. split; [vm_compute; reflexivity|]. split; [vm_compute; reflexivity|].
  intro n. assert (E : exists w, gmtime (3600 + 86400) = Ok w /\
    add_duration (S n) (mkTm 1970 1 1 0 0 0 3 1 0) (u "PT1H") = Ok (Some w)) by (eexists; split; vm_compute; reflexivity).
  split; [|exact E]. destruct E as [w [Ew ->]]. vm_compute in Ew. injection Ew as <-. discriminate.
Qed.
Print Assumptions C57_one_hour_refuted.
Example C57_days_clipped : exists t, gmtime 0 = Ok t /\
  (exists w, gmtime (31 * 86400) = Ok w /\ add_duration 5 t (u "P40D") = Ok (Some w)) /\
  (exists w, gmtime (2 * 86400) = Ok w /\ add_duration 5 t (u "P1DT60H") = Ok (Some w)).
Proof. eexists. split; [vm_compute; reflexivity|]. split; eexists; split; vm_compute; reflexivity. Qed.

(** ** C58 *)
Theorem C58_terminates : forall t text pos dur,
  1 <= tm_mday t -> 0 <= tm_hour t -> 0 <= tm_min t -> 0 <= tm_sec t ->
  parse_duration text = Ok (pos, dur) -> non_negative dur ->
  exists k r, r <> Err OutOfFuel /\ forall n, (k <= n)%nat -> add_duration n t text = r.
Proof. exact add_terminates. Qed.
Print Assumptions C58_terminates.
Theorem C58_day_in_month : forall y m days c, 1 <= m <= 12 -> 1 <= days ->
  exists k y' m' d' l, (forall n, (k <= n)%nat -> day_loop n y m days c = Ok (y', m', d')) /\
    month_length y' m' l /\ 1 <= d' <= l /\ epoch_days y' m' d' = epoch_days y m 1 + days - 1.
Proof. exact day_loop_month. Qed.
Print Assumptions C58_day_in_month.
Example C58_ex : day_loop 14 2019 12 400 0 = Ok (2021, 1, 3) /\ epoch_days 2021 1 3 = epoch_days 2019 12 1 + 399.
Proof. vm_compute. auto. Qed.

(** ** C81: with a number below zero (int() accepts a minus sign after white space) it need not
    end: every bound on the turns of the loop is exceeded *)
Theorem C81_add_duration_ends_refuted : exists t text pos dur, gmtime 0 = Ok t /\
  parse_duration text = Ok (pos, dur) /\ forall n, add_duration n t text = Err OutOfFuel.
Proof. exact add_never_ends. Qed.
Print Assumptions C81_add_duration_ends_refuted.

(** ** C59 *)
Theorem C59_before : forall now p, representable now -> representable p -> p <> 0 ->
  before now (PInt p) = Ok (now <? p).
Proof. exact before_int. Qed.
Print Assumptions C59_before.
Theorem C59_after : forall now p, representable now -> representable p -> p <> 0 ->
  after now (PInt p) = Ok (p <=? now).
Proof. exact after_int. Qed.
Print Assumptions C59_after.
Theorem C59_later_than : forall a b, representable a -> representable b -> later_than (PInt a) (PInt b) = Ok (b <=? a).
Proof. exact later_int. Qed.
Print Assumptions C59_later_than.
Theorem C59_texts : forall now p t s, representable now -> gmtime p = Ok t -> 1 <= tm_year t <= 9999 ->
  s = iso_base t ++ u "Z" \/ (exists ds, forallb is_digit ds = true /\ s = iso_base t ++ u "." ++ ds ++ u "Z") ->
  before now (PStr s) = Ok (now <? p) /\ after now (PStr s) = Ok (p <=? now).
Proof. exact text_orders. Qed.
Print Assumptions C59_texts.
Example C59_ex : before 1000 (PInt 1001) = Ok true /\ after 1000 (PInt 1001) = Ok false /\
  before 1000 (PInt 1000) = Ok false /\ after 1000 (PInt 1000) = Ok true /\
  later_than (PInt (-5)) (PInt 0) = Ok false /\
  before 951782399 (PStr (u "2000-02-29T00:00:00.25Z")) = Ok true /\
  after 951782400 (PStr (u "2000-02-29T00:00:00Z")) = Ok true.
Proof. vm_compute. repeat split. Qed.

(** ** C60 *)
Theorem C60_str_to_time : forall z t, gmtime z = Ok t -> 1 <= tm_year t <= 9999 ->
  str_to_time (iso_base t ++ u "Z") = Ok (Some t).
Proof. exact str_to_time_Z. Qed.
Print Assumptions C60_str_to_time.
Theorem C60_with_fraction : forall z t ds, gmtime z = Ok t -> 1 <= tm_year t <= 9999 -> forallb is_digit ds = true ->
  str_to_time (iso_base t ++ u "." ++ ds ++ u "Z") = Ok (Some t).
Proof. exact str_to_time_frac. Qed.
Print Assumptions C60_with_fraction.
Example C60_ex : exists t, gmtime 951827696 = Ok t /\ iso_base t ++ u "Z" = u "2000-02-29T12:34:56Z" /\
  str_to_time (u "2000-02-29T12:34:56Z") = Ok (Some t) /\ str_to_time (u "2000-02-29T12:34:56.789Z") = Ok (Some t) /\
  str_to_time (u "2001-02-29T12:34:56Z") = Err EAttributeError.
Proof. eexists. vm_compute. repeat split. Qed.
(** what instant() renders.  Missing: the years below 1000, which the C library does not pad. *)
Theorem C60_instant_partial : forall now t, gmtime now = Ok t -> 1000 <= tm_year t <= 9999 ->
  exists s, instant now = Ok s /\ str_to_time s = Ok (Some t).
Proof. exact instant_back. Qed.
Print Assumptions C60_instant_partial.
Example C60_instant_ex : instant 951827696 = Ok (u "2000-02-29T12:34:56Z").
Proof. vm_compute. reflexivity. Qed.
Theorem C60_short_year_refuted : exists now t s, gmtime now = Ok t /\ 1 <= tm_year t <= 9999 /\
  instant now = Ok s /\ str_to_time s = Err EAttributeError.
Proof.
  exists (-30641760000), (mkTm 999 1 1 0 0 0 1 1 0), (u "999-01-01T00:00:00Z"). split; [vm_compute; reflexivity|].
  split; [split; discriminate|]. split; vm_compute; reflexivity.
Qed.
Print Assumptions C60_short_year_refuted.
(** the fields are those of the Gregorian calendar: the epoch, and from each second to the same
    second of the next day *)
Theorem C60_calendar : 
  gmtime_tm 0 = mkTm 1970 1 1 0 0 0 3 1 0 /\
  forall z, next_date (tm_year (gmtime_tm z)) (tm_mon (gmtime_tm z)) (tm_mday (gmtime_tm z))
    (tm_year (gmtime_tm (z + 86400)), tm_mon (gmtime_tm (z + 86400)), tm_mday (gmtime_tm (z + 86400))) /\
  tm_hour (gmtime_tm (z + 86400)) = tm_hour (gmtime_tm z) /\
  tm_min (gmtime_tm (z + 86400)) = tm_min (gmtime_tm z) /\ tm_sec (gmtime_tm (z + 86400)) = tm_sec (gmtime_tm z).
Proof. exact (conj gmtime_epoch gmtime_tomorrow). Qed.
Print Assumptions C60_calendar.

(** ** C82: the times relative to now ([now] in microseconds) *)
Theorem C82_in_a_while : forall now d s, in_a_while now d = Ok s ->
  1000 <= tm_year (gmtime_tm ((now + delta_us d) / 1000000)) ->
  exists t, gmtime ((now + delta_us d) / 1000000) = Ok t /\ str_to_time s = Ok (Some t).
Proof. exact in_a_while_back. Qed.
Print Assumptions C82_in_a_while.
Theorem C82_a_while_ago : forall now d s, a_while_ago now d = Ok s ->
  1000 <= tm_year (gmtime_tm ((now - delta_us d) / 1000000)) ->
  exists t, gmtime ((now - delta_us d) / 1000000) = Ok t /\ str_to_time s = Ok (Some t).
Proof. exact ago_back. Qed.
Print Assumptions C82_a_while_ago.
Theorem C82_epoch_in_a_while : forall now d z, epoch_in_a_while now d = Ok z -> 0 <= now + delta_us d ->
  z * 1000000 <= now + delta_us d < (z + 1) * 1000000.
Proof. exact epoch_ok. Qed.
Print Assumptions C82_epoch_in_a_while.
Theorem C82_shift_time : forall us a b x y, shift_time us a = Ok x -> shift_time x b = Ok y ->
  y = us + (a + b) * 1000000.
Proof. exact shift_sum. Qed.
Print Assumptions C82_shift_time.
Example C82_ex : in_a_while 951827696999999 (mkDelta 1 0 1 0 0 (-24) 1) = Ok (u "2000-03-07T12:34:57Z") /\
  a_while_ago 951827696999999 (mkDelta 0 0 0 0 0 0 1) = Ok (u "2000-02-22T12:34:56Z") /\
  epoch_in_a_while 951827696999999 (mkDelta 0 0 1 0 0 0 0) = Ok 951827697 /\
  in_a_while 0 (mkDelta 0 0 0 0 0 0 1000000) = Err EOverflowError.
Proof. vm_compute. repeat split. Qed.
