(** The calendar of the standard library (datetime, calendar, time, _strptime) and the time stamps
    of oidc/identity_assurance.py.  Simplification: the local time zone is UTC. *)
From Coq Require Import List NArith ZArith QArith Bool String.
From Verif Require Import Base.Ustr Model.Cls Model.Value.
Import ListNotations.
Open Scope list_scope.
Open Scope N_scope.

(** the list is empty: the end of the text in strptime of the standard library, used in time_util.py:262-281, oidc/__init__.py:571-582 and oidc/identity_assurance.py:76-82 *)
Definition is_nil {A} (l : list A) : bool := match l with [] => true | _ => false end.

(** a month as in the strptime regular expression, [1[0-2]|0[1-9]|[1-9]]: the possible
    numbers with the rest of the text, in the order the alternatives are tried *)
Definition alts (l : list (option (N * ustr))) : list (N * ustr) :=
  List.concat (map (fun o => match o with Some x => [x] | None => [] end) l).
(** two characters of given kinds as a number, strptime of the standard library, used in time_util.py:262-281, oidc/__init__.py:571-582 and oidc/identity_assurance.py:76-82 *)
Definition two (f g : N -> bool) (s : ustr) : option (N * ustr) :=
  match s with
  | a :: b :: r => if f a && g b then Some ((a - 48) * 10 + (b - 48), r) else None
  | _ => None
  end.
(** one character of a given kind as a number, strptime of the standard library, used in time_util.py:262-281, oidc/__init__.py:571-582 and oidc/identity_assurance.py:76-82 *)
Definition one (g : N -> bool) (s : ustr) : option (N * ustr) :=
  match s with b :: r => if g b then Some (b - 48, r) else None | _ => None end.
(** a range of characters, strptime of the standard library, used in time_util.py:262-281, oidc/__init__.py:571-582 and oidc/identity_assurance.py:76-82 *)
Definition between (a b c : N) : bool := (a <=? c) && (c <=? b).
(** a month, strptime of the standard library, used in time_util.py:262-281, oidc/__init__.py:571-582 and oidc/identity_assurance.py:76-82 *)
Definition p_month (s : ustr) : list (N * ustr) :=
  alts [two (N.eqb 49) (between 48 50) s; two (N.eqb 48) (between 49 57) s; one (between 49 57) s].
(** a day, [3[0-1]|[1-2]\d|0[1-9]|[1-9]| [1-9]] *)
Definition p_day (s : ustr) : list (N * ustr) :=
  alts [two (N.eqb 51) (between 48 49) s; two (between 49 50) is_digit s; two (N.eqb 48) (between 49 57) s;
        one (between 49 57) s; match s with 32 :: r => one (between 49 57) r | _ => None end].
(** a year, four digits;
    strptime of the standard library, used in time_util.py:262-281, oidc/__init__.py:571-582 and oidc/identity_assurance.py:76-82 *)
Definition p_year (s : ustr) : list (N * ustr) :=
  match s with
  | a :: b :: c :: d :: r =>
      if is_digit a && is_digit b && is_digit c && is_digit d
      then [(((a - 48) * 10 + (b - 48)) * 100 + ((c - 48) * 10 + (d - 48)), r)] else []
  | _ => []
  end.
(** a literal character, strptime of the standard library, used in time_util.py:262-281, oidc/__init__.py:571-582 and oidc/identity_assurance.py:76-82 *)
Definition p_lit (c : N) (s : ustr) : list ustr :=
  match s with x :: r => if x =? c then [r] else [] | [] => [] end.

(** the calendar: [datetime.date(y, m, d)] accepts;
    used in strptime of the standard library, used in time_util.py:262-281, oidc/__init__.py:571-582 and oidc/identity_assurance.py:76-82 *)
Definition leap (y : N) : bool := ((y mod 4 =? 0) && negb (y mod 100 =? 0)) || (y mod 400 =? 0).
(** days of a month, datetime.date; strptime of the standard library, used in time_util.py:262-281, oidc/__init__.py:571-582 and oidc/identity_assurance.py:76-82 *)
Definition month_days (y m : N) : N :=
  if m =? 2 then (if leap y then 29 else 28)
  else if umem [m] [[4]; [6]; [9]; [11]] then 30 else 31.
(** datetime.date(y, m, d) accepts; strptime of the standard library, used in time_util.py:262-281, oidc/__init__.py:571-582 and oidc/identity_assurance.py:76-82 *)
Definition valid_date (y m d : N) : bool :=
  (1 <=? y) && (y <=? 9999) && (1 <=? m) && (m <=? 12) && (1 <=? d) && (d <=? month_days y m).

(** the format %Y-%m-%d, oidc/__init__.py:574, oidc/identity_assurance.py:51 *)
Definition match_ymd (s : ustr) : option (N * N * N * ustr) :=
  hd_error (List.concat (map (fun yr => let '(y, r) := yr in
    List.concat (map (fun r => List.concat (map (fun mr => let '(m, r) := mr in
      List.concat (map (fun r => map (fun dr => let '(d, r) := dr in (y, m, d, r)) (p_day r)) (p_lit 45 r)))
        (p_month r))) (p_lit 45 r))) (p_year s))).
Open Scope Z_scope.
(** hours, minutes, seconds and letters of the regular expression; case is ignored;
    strptime of the standard library, used in time_util.py:262-281, oidc/__init__.py:571-582 and oidc/identity_assurance.py:76-82 *)
Definition p_hour (s : ustr) : list (N * ustr) :=
  alts [two (N.eqb 50) (between 48 51) s; two (between 48 49) is_digit s; one is_digit s].
(** minutes, strptime of the standard library, used in time_util.py:262-281, oidc/__init__.py:571-582 and oidc/identity_assurance.py:76-82 *)
Definition p_min (s : ustr) : list (N * ustr) := alts [two (between 48 53) is_digit s; one is_digit s].
(** seconds, strptime of the standard library, used in time_util.py:262-281, oidc/__init__.py:571-582 and oidc/identity_assurance.py:76-82 *)
Definition p_sec (s : ustr) : list (N * ustr) :=
  alts [two (N.eqb 54) (between 48 49) s; two (between 48 53) is_digit s; one is_digit s].
(** a literal letter in either case, strptime of the standard library, used in time_util.py:262-281, oidc/__init__.py:571-582 and oidc/identity_assurance.py:76-82 *)
Definition p_letter (c : N) (s : ustr) : list ustr :=
  match s with x :: r => if ((x =? c) || (x =? c + 32))%N then [r] else [] | [] => [] end.

(** ** The calendar of the standard library *)

(** calendar.isleap; calendar of the standard library, used in time_util.py:62-63, 126-171, 262-281 *)
Definition isleap (y : Z) : bool := (y mod 4 =? 0) && (negb (y mod 100 =? 0) || (y mod 400 =? 0)).
(** calendar.mdays and datetime._DAYS_BEFORE_MONTH;
    calendar of the standard library, used in time_util.py:62-63, 126-171, 262-281 *)
Definition mdays (m : Z) : Z :=
  match m with
  | 2 => 28
  | 4 | 6 | 9 | 11 => 30
  | _ => 31
  end.
(** the days before a month of a year that is no leap year, calendar of the standard library, used in time_util.py:62-63, 126-171, 262-281 *)
Definition dbm0 (m : Z) : Z :=
  match m with
  | 1 => 0 | 2 => 31 | 3 => 59 | 4 => 90 | 5 => 120 | 6 => 151 | 7 => 181 | 8 => 212
  | 9 => 243 | 10 => 273 | 11 => 304 | 12 => 334 | _ => 365
  end.
(** the leap day, calendar of the standard library, used in time_util.py:62-63, 126-171, 262-281 *)
Definition leapd (y : Z) : Z := if isleap y then 1 else 0.
(** maximum_day_in_month_for, 62-63 (calendar.monthrange raises for an illegal month) *)
Definition max_day (y m : Z) : res Z :=
  if (1 <=? m) && (m <=? 12) then Ok (mdays m + (if m =? 2 then leapd y else 0)) else Err EValueError.
(** datetime._days_before_year, _days_before_month, _ymd2ord; the epoch has the ordinal 719163 *)
Definition days_before_year (y : Z) : Z :=
  let p := y - 1 in p * 365 + p / 4 - p / 100 + p / 400.
(** datetime._days_before_month, calendar of the standard library, used in time_util.py:62-63, 126-171, 262-281 *)
Definition days_before_month (y m : Z) : Z := dbm0 m + (if 2 <? m then leapd y else 0).
(** days since the epoch, calendar of the standard library, used in time_util.py:62-63, 126-171, 262-281 *)
Definition epoch_days (y m d : Z) : Z := days_before_year y + days_before_month y m + d - 719163.

(** struct_time; time_util.py:126-171, 262-281 *)
Record tm := mkTm {
  tm_year : Z; tm_mon : Z; tm_mday : Z; tm_hour : Z; tm_min : Z; tm_sec : Z;
  tm_wday : Z; tm_yday : Z; tm_isdst : Z }.
(** struct_time as a tuple, compared in time_util.py:301, 334 *)
Definition tm_list (t : tm) : list Z :=
  [tm_year t; tm_mon t; tm_mday t; tm_hour t; tm_min t; tm_sec t; tm_wday t; tm_yday t; tm_isdst t].
(** tuple comparison; time_util.py:301, 334 *)
Fixpoint lex_lt (a b : list Z) : bool :=
  match a, b with
  | [], [] => false
  | [], _ => true
  | _, [] => false
  | x :: a, y :: b => if x =? y then lex_lt a b else x <? y
  end.
(** struct_time <, time_util.py:301 *)
Definition tm_lt (a b : tm) : bool := lex_lt (tm_list a) (tm_list b).
(** struct_time <=, time_util.py:334 *)
Definition tm_le (a b : tm) : bool := negb (tm_lt b a).

(** the month and day of a day of the year, counted from 0 *)
Definition month_of (y doy : Z) : Z :=
  Z.of_nat (List.length (filter (fun m => days_before_month y m <=? doy) [1; 2; 3; 4; 5; 6; 7; 8; 9; 10; 11; 12])).
(** the year of a day (datetime._ord2ymd; days counted from 1 January of year 1) and the day of the year *)
Definition year_of (n : Z) : Z * Z :=
  let n400 := n / 146097 in
  let r := n mod 146097 in
  let n100 := Z.min 3 (r / 36524) in
  let r2 := r - 36524 * n100 in
  let n4 := r2 / 1461 in
  let r3 := r2 mod 1461 in
  let n1 := Z.min 3 (r3 / 365) in
  (400 * n400 + 100 * n100 + 4 * n4 + n1 + 1, r3 - 365 * n1).

(** the fields of time.gmtime, time_util.py:284-301 *)
Definition gmtime_tm (z : Z) : tm :=
  let days := z / 86400 in
  let s := z mod 86400 in
  let '(y, doy) := year_of (days + 719162) in
  let m := month_of y doy in
  mkTm y m (doy - days_before_month y m + 1) (s / 3600) (s mod 3600 / 60) (s mod 60)
       ((days + 3) mod 7) (doy + 1) 0.

(** time.gmtime(z): the C library represents year - 1900 as a 32-bit integer and z as a 64-bit one *)
Definition int32 (z : Z) : bool := (-2147483648 <=? z) && (z <=? 2147483647).
(** time_t, used by time.gmtime, time_util.py:284-301 *)
Definition int64 (z : Z) : bool := (-9223372036854775808 <=? z) && (z <=? 9223372036854775807).
(** time.gmtime, time_util.py:284-301 (and localtime in UTC, 126-171) *)
Definition gmtime (z : Z) : res tm :=
  if int64 z then
    let t := gmtime_tm z in
    if int32 (tm_year t - 1900) then Ok t else Err EOSError
  else Err EOverflowError.

(** calendar.timegm of the first six fields; datetime.date requires a year in 1..9999 *)
Definition seconds_of (y m d h mi s : Z) : Z := ((epoch_days y m 1 + d - 1) * 24 + h) * 3600 + mi * 60 + s.
(** calendar.timegm, time_util.py:262-281 *)
Definition timegm (y m d h mi s : Z) : res Z :=
  if (1 <=? y) && (y <=? 9999) && (1 <=? m) && (m <=? 12) then Ok (seconds_of y m d h mi s) else Err EValueError.

(** %m, %d, %H, %M, %S of strftime, time_util.py:284-285, oidc/identity_assurance.py:54-73 *)
Definition pad2 (z : Z) : ustr := if z <? 10 then 48%N :: dec_Z z else dec_Z z.

(** ** Time stamps of identity_assurance.py *)

(** the offset %z: Z, +hhmm, +hh:mm, +hhmmss, +hh:mm:ss in seconds.  Fractions of a second are
    outside the model. oidc/identity_assurance.py:76-82 *)
Definition digit2 (a b : N) : Z := Z.of_N ((a - 48) * 10 + (b - 48)).
(** the offset as seconds, oidc/identity_assurance.py:76-82 *)
Definition zone_sum (sg : N) (h m s : Z) : res Z :=
  let z := h * 3600 + m * 60 + s in
  if z <? 86400 then Ok (if (sg =? 45)%N then - z else z) else Err EValueError.
(** an optional colon in the offset, oidc/identity_assurance.py:76-82 *)
Definition colon_off (s : ustr) : bool * ustr :=
  match s with 58%N :: r => (true, r) | _ => (false, s) end.
(** %z of strptime, oidc/identity_assurance.py:76-82 *)
Definition parse_zone (s : ustr) : res Z :=
  match s with
  | [90%N] => Ok 0
  | sg :: a :: b :: r =>
      if ((sg =? 43) || (sg =? 45))%N && is_digit a && is_digit b then
        let (c1, r) := colon_off r in
        match r with
        | m1 :: m2 :: r =>
            if between 48 53 m1 && is_digit m2 then
              match r with
              | [] => zone_sum sg (digit2 a b) (digit2 m1 m2) 0
              | _ =>
                  let (c2, r) := colon_off r in
                  match r with
                  | s1 :: s2 :: r =>
                      if between 48 53 s1 && is_digit s2 then
                        match r with
                        | [] => if Bool.eqb c1 c2 then zone_sum sg (digit2 a b) (digit2 m1 m2) (digit2 s1 s2)
                                else Err EValueError
                        | 46%N :: _ => Err OutOfModel
                        | _ => Err EValueError
                        end
                      else Err EValueError
                  | _ => Err EValueError
                  end
              end
            else Err EValueError
        | _ => Err EValueError
        end
      else Err EValueError
  | _ => Err EValueError
  end.
(** the text up to the offset, TIME_FORMAT, identity_assurance.py:50 *)
Definition p_signed (s : ustr) : list ustr :=
  match s with c :: _ => if ((c =? 43) || (c =? 45) || (c =? 90))%N then [s] else [] | [] => [] end.
(** the whole format, oidc/identity_assurance.py:50, 76-82 *)
Definition match_stamp (s : ustr) : option (N * N * N * N * N * N * ustr) :=
  hd_error (
    flat_map (fun yr => let '(y, r) := yr in flat_map (fun r =>
    flat_map (fun mr => let '(m, r) := mr in flat_map (fun r =>
    flat_map (fun dr => let '(d, r) := dr in flat_map (fun r =>
    flat_map (fun hr => let '(h, r) := hr in flat_map (fun r =>
    flat_map (fun ir => let '(mi, r) := ir in flat_map (fun r =>
    flat_map (fun sr => let '(se, r) := sr in map (fun r => (y, m, d, h, mi, se, r)) (p_signed r))
      (p_sec r)) (p_lit 58 r)) (p_min r)) (p_lit 58 r)) (p_hour r)) (p_letter 84 r)) (p_day r))
      (p_lit 45 r)) (p_month r)) (p_lit 45 r)) (p_year s)).
(** from_iso8601_2004 with TIME_FORMAT, 76-82: datetime requires seconds below 60 *)
Definition from_iso_time (s : ustr) : res Z :=
  if forallb is_ascii s then
    match match_stamp s with
    | Some (y, m, d, h, mi, se, r) =>
        do off <- parse_zone r ;
        if valid_date y m d && (se <? 60)%N then
          Ok (seconds_of (Z.of_N y) (Z.of_N m) (Z.of_N d) (Z.of_N h) (Z.of_N mi) (Z.of_N se) - off)
        else Err EValueError
    | None => Err EValueError
    end
  else Err OutOfModel.
(** from_iso8601_2004 with DATE_FORMAT; the timestamp() of the first day of year 1 raises *)
Definition from_iso_date (s : ustr) : res Z :=
  if forallb is_ascii s then
    match match_ymd s with
    | Some (y, m, d, r) =>
        if is_nil r && valid_date y m d && negb ((y =? 1) && (m =? 1) && (d =? 1))%N
        then Ok (seconds_of (Z.of_N y) (Z.of_N m) (Z.of_N d) 0 0 0) else Err EValueError
    | None => Err EValueError
    end
  else Err OutOfModel.
(** to_iso8601_2004, 54-73, of a number of seconds at the time [now]: datetime.fromtimestamp, which
    looks a day back as well, and strftime, which does not pad the year.  0 stands for the current
    time.  The local time zone is UTC. *)
Definition to_iso_at (now : Z) (date_only : bool) (z : Z) : res ustr :=
  let z := if z =? 0 then now else z in
  do t <- gmtime z ;
  if (tm_year t <? 1) || (9999 <? tm_year t) || (z <? -62135510400) then Err EValueError
  else
    let date := dec_Z (tm_year t) ++ u "-" ++ pad2 (tm_mon t) ++ u "-" ++ pad2 (tm_mday t) in
    Ok (if date_only then date
        else date ++ u "T" ++ pad2 (tm_hour t) ++ u ":" ++ pad2 (tm_min t) ++ u ":" ++ pad2 (tm_sec t) ++ u "+0000").
(** the same where the current time is not at hand: 0 is outside the model *)
Definition to_iso (date_only : bool) (z : Z) : res ustr :=
  if z =? 0 then Err OutOfModel else to_iso_at 0 date_only z.
(** time_stamp_ser 101-112 and date_ser 126-137 *)
Definition stamp_ser (date_only : bool) (v : value) : res value :=
  match v with
  | VInt _ | VFlt _ | VBool _ | VStr _ => do z <- py_int v ; do t <- to_iso date_only z ; Ok (VStr t)
  | _ => Err EValueError
  end.
(** time_stamp_deser 115-119 and date_deser 140-144: a float; strptime of a non-text is a TypeError *)
Definition stamp_deser (date_only : bool) (v : value) : res value :=
  match v with
  | VInt _ | VBool _ | VFlt _ => Ok v
  | VStr s => do z <- (if date_only then from_iso_date s else from_iso_time s) ; Ok (VFlt (inject_Z z))
  | _ => Err ETypeError
  end.
