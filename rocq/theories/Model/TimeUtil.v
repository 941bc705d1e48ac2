(** src/oidcmsg/time_util.py: calendar, durations, points in time. *)
From Coq Require Import List NArith ZArith QArith_base Qround Bool String.
From Verif Require Import Base.Ustr Model.Float Model.Value Model.Verify.
From Verif Require Export Model.Calendar.
Import ListNotations.
Open Scope list_scope.
Open Scope Z_scope.

(** ** f_quotient and modulo, time_util.py:46-59, of integers *)
Definition fq (a b c : Z) : res Z :=
  if negb (c =? 0) then
    if c - b =? 0 then Err EZeroDivisionError else Ok ((a - b) / (c - b))
  else if a =? 0 then Ok 0
  else if b =? 0 then Err EZeroDivisionError else Ok (a / b).
(** modulo, time_util.py:55-59 *)
Definition modulo (a b c : Z) : res Z :=
  if negb (c =? 0) then
    if c - b =? 0 then Err EZeroDivisionError else Ok ((a - b) mod (c - b) + b)
  else if b =? 0 then Err EZeroDivisionError else Ok (a mod b).

(** ** Durations *)

(** the seconds of a duration: an integer, or the text float() was applied to; time_util.py:104-112 *)
Inductive dsec := DInt (z : Z) | DFlt (s : ustr).
(** the dictionary that parse_duration fills, time_util.py:87-121 *)
Record duration := mkDur { d_year : Z; d_mon : Z; d_mday : Z; d_hour : Z; d_min : Z; d_sec : dsec }.

(** whether float(s) accepts an ASCII string; time_util.py:109-112 *)
Fixpoint digits_end (s : ustr) (prev_digit : bool) : option ustr :=
  match s with
  | [] => if prev_digit then Some [] else None
  | c :: r =>
      if is_digit c then digits_end r true
      else if (c =? 95)%N && prev_digit then
        match r with
        | d :: _ => if is_digit d then digits_end r false else None
        | [] => None
        end
      else if prev_digit then Some s else None
  end.
(** float(s): the sign, time_util.py:109-112 *)
Definition sign_off (s : ustr) : ustr :=
  match s with c :: r => if (c =? 43)%N || (c =? 45)%N then r else s | [] => [] end.
(** float(s): the exponent, time_util.py:109-112 *)
Definition exponent_ok (s : ustr) : bool :=
  match s with
  | [] => true
  | c :: r => ((c =? 101)%N || (c =? 69)%N) &&
              match digits_end (sign_off r) false with Some [] => true | _ => false end
  end.
(** float(s): the fraction, time_util.py:109-112 *)
Definition fraction_ok (s : ustr) (some_digits : bool) : bool :=
  match s with
  | 46%N :: r => match digits_end r false with
               | Some t => exponent_ok t
               | None => match r with
                         | c :: _ => if is_digit c then false else some_digits && exponent_ok r
                         | [] => some_digits
                         end
               end
  | _ => some_digits && exponent_ok s
  end.
(** float(s) accepts, time_util.py:109-112 *)
Definition float_ok (s : ustr) : bool :=
  let t := sign_off (strip s) in
  umem (map lower1 t) [u "inf"; u "infinity"; u "nan"] ||
  match t with
  | 46%N :: _ => fraction_ok t false
  | _ => match digits_end t false with Some r => fraction_ok r true | None => false end
  end.

(** one turn of the loop, time_util.py:91-121; the state is the rest of the text *)
Inductive dfield := FYear | FMon | FDay | FT | FHour | FMin | FSec.
(** D_FORMAT, time_util.py:66-74 *)
Definition d_format : list dfield := [FYear; FMon; FDay; FT; FHour; FMin; FSec].
(** the letters of D_FORMAT, time_util.py:66-74 *)
Definition d_code (f : dfield) : N :=
  (match f with FYear => 89 | FMon => 77 | FDay => 68 | FT => 84 | FHour => 72 | FMin => 77 | FSec => 83 end)%N.
(** dic[key] = ..., time_util.py:91-121 *)
Definition d_put (f : dfield) (z : dsec) (d : duration) : duration :=
  let i := match z with DInt i => i | DFlt _ => 0 end in
  match f with
  | FYear => mkDur i (d_mon d) (d_mday d) (d_hour d) (d_min d) (d_sec d)
  | FMon => mkDur (d_year d) i (d_mday d) (d_hour d) (d_min d) (d_sec d)
  | FDay => mkDur (d_year d) (d_mon d) i (d_hour d) (d_min d) (d_sec d)
  | FT => d
  | FHour => mkDur (d_year d) (d_mon d) (d_mday d) i (d_min d) (d_sec d)
  | FMin => mkDur (d_year d) (d_mon d) (d_mday d) (d_hour d) i (d_sec d)
  | FSec => mkDur (d_year d) (d_mon d) (d_mday d) (d_hour d) (d_min d) z
  end.
(** int(...) or float(...) of the text before the letter, time_util.py:91-121 *)
Definition d_number (f : dfield) (s : ustr) : res dsec :=
  match py_int_str s with
  | Ok z => Ok (DInt z)
  | Err EValueError =>
      match f with
      | FSec => if float_ok s then Ok (DFlt s) else Err ETimeUtilError
      | _ => Err ETimeUtilError
      end
  | Err e => Err e
  end.
(** one entry of D_FORMAT, time_util.py:91-121 *)
Definition d_step (f : dfield) (rest : ustr) (d : duration) : res (ustr * duration) :=
  match rest with
  | [] => Err EIndexError
  | c :: r =>
      if (c =? 45)%N then Err ETimeUtilError
      else match f with
           | FT => if (c =? 84)%N then match r with [] => Err ETimeUtilError | _ => Ok (r, d) end
                   else Err ETimeUtilError
           | _ => match partition1 (d_code f) rest with
                  | (p, true, after) => do z <- d_number f p ; Ok (after, d_put f z d)
                  | (_, false, _) => Ok (rest, d_put f (DInt 0) d)
                  end
           end
  end.
(** the loop over D_FORMAT, time_util.py:91-121 *)
Fixpoint d_loop (l : list dfield) (rest : ustr) (d : duration) : res duration :=
  match l with
  | [] => Ok d
  | f :: l =>
      do rd <- d_step f rest d ;
      let (rest', d') := rd in
      match rest' with [] => Ok d' | _ => d_loop l rest' d' end
  end.
(** the empty dictionary, time_util.py:87 *)
Definition d_zero : duration := mkDur 0 0 0 0 0 (DInt 0).
(** parse_duration, 66-123: the sign is positive, and the numbers *)
Definition parse_duration (s : ustr) : res (bool * duration) :=
  match s with
  | [] => Err EIndexError
  | c :: r =>
      let (pos, t) := if (c =? 45)%N then (false, r) else (true, s) in
      match t with
      | [] => Err EIndexError
      | p :: t => if (p =? 80)%N then do d <- d_loop d_format t d_zero ; Ok (pos, d) else Err EValueError
      end
  end.

(** the loop of add_duration, 156-166, at most [fuel] turns: year, month and day *)
Fixpoint day_loop (fuel : nat) (year month days carry : Z) : res (Z * Z * Z) :=
  match fuel with
  | O => Err OutOfFuel
  | S fuel =>
      let again days carry :=
        let temp := month + carry in
        do month' <- modulo temp 1 13 ;
        do q <- fq temp 1 13 ;
        day_loop fuel (year + q) month' days carry in
      if days <? 1 then again days carry
      else do mx <- max_day year month ;
           if mx <? days then again (days - mx) 1 else Ok (year, month, days)
  end.

(** time.localtime(time.mktime(...)) with a possibly too large hour.  Simplification: the local
    time zone is UTC. time_util.py:126-171 *)
Definition mk_local (y m d h mi s : Z) : res tm :=
  if int32 y && int32 (y - 1900) then gmtime (seconds_of y m d h mi s) else Err EOverflowError.

(** float(s) of a text that it accepts, time_util.py:109-112; [None]: infinite or not a number *)
Definition float_value (s : ustr) : option Q :=
  let t := strip s in
  let b := map lower1 (sign_off t) in
  if umem b [u "inf"; u "infinity"; u "nan"] then None
  else
    let '(m, _, e) := partition1 101 b in
    let '(ds, _, fs) := partition1 46 m in
    let plain := filter is_digit in
    let x := match py_int_str e with Ok x => x | Err _ => 0 end in
    match float_of (Z.of_N (num_of_digits 0 (plain ds ++ plain fs))) (x - Z.of_nat (List.length (plain fs))) with
    | Some q => Some (match t with 45%N :: _ => Qopp q | _ => q end)
    | None => None
    end.
(** int(a // b) of a floating point number and a positive integer, time_util.py:46-52: CPython divides what is left without the
    remainder of the division towards zero (exact), and rounds the result to the nearest integer below;
    [None]: the number is infinite *)
Definition floor_div (a : Q) (b : Z) : option Z :=
  let q := (Z.quot (Qnum a) (Zpos (Qden a) * b)) in
  let below := Qnum a <? q * b * Zpos (Qden a) in
  match round_flt (inject_Z (q * b)) with
  | None => None
  | Some c =>
      match round_flt (c / inject_Z b)%Q with
      | None => None
      | Some d =>
          match (if below then round_flt (d - 1)%Q else Some d) with
          | None => None
          | Some d => let f := Qfloor d in Some (if Qle_bool (d - inject_Z f) (1 # 2) then f else f + 1)
          end
      end
  end.
(** f_quotient(temp, 60) for seconds with a fraction, time_util.py:137-139: int() refuses what is not a number *)
Definition float_carry (secs : Z) (s : ustr) : res Z :=
  match float_value s with
  | None => Err EValueError
  | Some x => match round_flt (inject_Z secs + x)%Q with
              | None => Err EValueError
              | Some temp => match floor_div temp 60 with Some c => Ok c | None => Err EValueError end
              end
  end.
(** add_duration, 129-169, of seconds with a fraction: mktime takes integers only *)
Definition add_fraction (fuel : nat) (t : tm) (dur : duration) (s : ustr) : res tm :=
  do month <- modulo (tm_mon t + d_mon dur) 1 13 ;
  do c1 <- fq (tm_mon t + d_mon dur) 1 13 ;
  let year := tm_year t + d_year dur + c1 in
  do c2 <- float_carry (tm_sec t) s ;
  do c3 <- fq (tm_min t + d_min dur + c2) 60 0 ;
  do c4 <- fq (tm_hour t + d_hour dur + c3) 60 0 ;
  do mx <- max_day year month ;
  let temp_days := if mx <? d_mday dur then mx else if d_mday dur <? 1 then 1 else d_mday dur in
  do ymd <- day_loop fuel year month (temp_days + tm_mday t + c4) c4 ;
  let '(y, _, _) := ymd in
  if int32 y then Err ETypeError else Err EOverflowError.

(** add_duration, 126-171, with a bound on the turns of its loop; None for negative durations *)
Definition add_to (fuel : nat) (t : tm) (dur : duration) : res tm :=
  match d_sec dur with
  | DFlt s => add_fraction fuel t dur s
  | DInt dsecs =>
      do month <- modulo (tm_mon t + d_mon dur) 1 13 ;
      do c1 <- fq (tm_mon t + d_mon dur) 1 13 ;
      let year := tm_year t + d_year dur + c1 in
      do secs <- modulo (tm_sec t + dsecs) 60 0 ;
      do c2 <- fq (tm_sec t + dsecs) 60 0 ;
      do minutes <- modulo (tm_min t + d_min dur + c2) 60 0 ;
      do c3 <- fq (tm_min t + d_min dur + c2) 60 0 ;
      do hour <- modulo (tm_hour t + d_hour dur + c3) 60 0 ;
      do c4 <- fq (tm_hour t + d_hour dur + c3) 60 0 ;
      do mx <- max_day year month ;
      let temp_days := if mx <? d_mday dur then mx else if d_mday dur <? 1 then 1 else d_mday dur in
      do ymd <- day_loop fuel year month (temp_days + tm_mday t + c4) c4 ;
      let '(y, m, d) := ymd in
      mk_local y m d hour minutes secs
  end.
(** add_duration, time_util.py:126-171 *)
Definition add_duration (fuel : nat) (t : tm) (s : ustr) : res (option tm) :=
  do sd <- parse_duration s ;
  let (pos, dur) := sd in
  if pos then do r <- add_to fuel t dur ; Ok (Some r) else Ok None.

(** ** Points in time *)

(** strptime(s, "%Y-%m-%dT%H:%M:%SZ"): the regular expression; time_util.py:29, 262-281 *)
Definition match_iso (s : ustr) : option (N * N * N * N * N * N * ustr) :=
  hd_error (
    flat_map (fun yr => let '(y, r) := yr in flat_map (fun r =>
    flat_map (fun mr => let '(m, r) := mr in flat_map (fun r =>
    flat_map (fun dr => let '(d, r) := dr in flat_map (fun r =>
    flat_map (fun hr => let '(h, r) := hr in flat_map (fun r =>
    flat_map (fun ir => let '(mi, r) := ir in flat_map (fun r =>
    flat_map (fun sr => let '(se, r) := sr in map (fun r => (y, m, d, h, mi, se, r)) (p_letter 90 r))
      (p_sec r)) (p_lit 58 r)) (p_min r)) (p_lit 58 r)) (p_hour r)) (p_letter 84 r)) (p_day r))
      (p_lit 45 r)) (p_month r)) (p_lit 45 r)) (p_year s)).
(** strptime with TIME_FORMAT, time_util.py:29, 262-281 *)
Definition strptime_iso (s : ustr) : res (Z * Z * Z * Z * Z * Z) :=
  if forallb is_ascii s then
    match match_iso s with
    | Some (y, m, d, h, mi, se, r) =>
        if is_nil r && valid_date y m d
        then Ok (Z.of_N y, Z.of_N m, Z.of_N d, Z.of_N h, Z.of_N mi, Z.of_N se) else Err EValueError
    | None => Err EValueError
    end
  else Err OutOfModel.

(** TIME_FORMAT_WITH_FRAGMENT, 30-31: the group, when the text matches *)
Definition p_digits (n : nat) (s : ustr) : option (ustr * ustr) :=
  if (n <=? List.length s)%nat && forallb is_digit (firstn n s) then Some (firstn n s, skipn n s) else None.
(** a literal character of the regular expression, time_util.py:30-31 *)
Definition p_char (c : N) (s : ustr) : option ustr :=
  match s with x :: r => if (x =? c)%N then Some r else None | [] => None end.
(** the text up to the fraction, time_util.py:30-31 *)
Fixpoint frag_head (shape : list (nat * N)) (s : ustr) : option (ustr * ustr) :=
  match shape with
  | [] => Some ([], s)
  | (n, c) :: l =>
      match p_digits n s with
      | None => None
      | Some (a, r) =>
          match p_char c r with
          | None => None
          | Some r => match frag_head l r with Some (b, t) => Some (a ++ c :: b, t) | None => None end
          end
      end
  end.
(** the group has the point at its end taken off; time_util.py:30-31, 270-278 *)
Definition match_frag (s : ustr) : option ustr :=
  match frag_head [(4%nat, 45%N); (2%nat, 45%N); (2%nat, 84%N); (2%nat, 58%N); (2%nat, 58%N); (2%nat, 46%N)] s with
  | Some (g, t) =>
      match snd (span is_digit t) with
      | [90%N] | [90%N; 10%N] => Some (removelast g)
      | _ => None
      end
  | None => None
  end.

(** str_to_time, 262-281, with the default format: None for the integer 0 *)
Definition str_to_time (s : ustr) : res (option tm) :=
  match s with
  | [] => Ok None
  | _ =>
      do f <- match strptime_iso s with
              | Err EValueError =>
                  match match_frag s with
                  | Some g => strptime_iso (g ++ u "Z")
                  | None => Err EAttributeError
                  end
              | r => r
              end ;
      let '(y, m, d, h, mi, se) := f in
      do z <- timegm y m d h mi se ;
      do t <- gmtime z ;
      Ok (Some t)
  end.

(** strftime(TIME_FORMAT): the C library does not pad the year; time_util.py:284-285 *)
Definition strftime (t : tm) : ustr :=
  dec_Z (tm_year t) ++ u "-" ++ pad2 (tm_mon t) ++ u "-" ++ pad2 (tm_mday t) ++ u "T" ++
  pad2 (tm_hour t) ++ u ":" ++ pad2 (tm_min t) ++ u ":" ++ pad2 (tm_sec t) ++ u "Z".
(** instant, 284-285, with the default format at the time [now] *)
Definition instant (now : Z) : res ustr := do t <- gmtime now ; Ok (strftime t).

(** the arguments of before, after and later_than; time_util.py:291-334 *)
Inductive point := PNone | PInt (z : Z) | PStr (s : ustr) | PTm (t : tm).
(** [not point], time_util.py:291-309 *)
Definition pfalse (p : point) : bool :=
  match p with PNone => true | PInt z => z =? 0 | PStr s => is_nil s | PTm _ => false end.
(** converted: None for values that are no struct_time (0 and None) *)
Definition conv (p : point) : res (option tm) :=
  match p with
  | PNone => Ok None
  | PInt z => do t <- gmtime z ; Ok (Some t)
  | PStr s => str_to_time s
  | PTm t => Ok (Some t)
  end.

(** before, 291-301, at the time [now] (whole seconds, as time.gmtime() has them) *)
Definition before (now : Z) (p : point) : res bool :=
  if pfalse p then Ok true
  else do t <- conv p ;
       match t with
       | Some t => do n <- gmtime now ; Ok (tm_lt n t)
       | None => Err ETypeError
       end.
(** after, 304-309; not_before is another name *)
Definition after (now : Z) (p : point) : res bool :=
  if pfalse p then Ok true else do b <- before now p ; Ok (negb b).
(** not_before, not_on_or_after and valid, 312-319 *)
Definition not_before := after.
(** not_on_or_after, time_util.py:312-319 *)
Definition not_on_or_after := before.
(** valid, time_util.py:312-319 *)
Definition valid := before.

(** later_than, 322-334 *)
Definition later_than (a b : point) : res bool :=
  do x <- conv a ;
  do y <- conv b ;
  match x, y with
  | Some x, Some y => Ok (tm_le y x)
  | None, None => match a, b with PStr _, PStr _ => Ok true | _, _ => Err ETypeError end
  | _, _ => Err ETypeError
  end.

(** ** Times relative to now, in microseconds since the epoch *)

(** timedelta(...) of integers, in microseconds; time_util.py:177-205 *)
Record delta := mkDelta { dl_days : Z; dl_seconds : Z; dl_us : Z; dl_ms : Z; dl_minutes : Z; dl_hours : Z; dl_weeks : Z }.
(** the sum of a timedelta, time_util.py:177-205 *)
Definition delta_us (d : delta) : Z :=
  ((dl_weeks d * 7 + dl_days d) * 86400 + dl_hours d * 3600 + dl_minutes d * 60 + dl_seconds d) * 1000000
  + dl_ms d * 1000 + dl_us d.
(** timedelta: at most 999999999 days *)
Definition timedelta (d : delta) : res Z :=
  let n := delta_us d / 86400000000 in
  if (-999999999 <=? n) && (n <=? 999999999) then Ok (delta_us d) else Err EOverflowError.
(** a datetime: years 1 to 9999 *)
Definition datetime_ok (us : Z) : bool := (-62135596800000000 <=? us) && (us <? 253402300800000000).
(** datetime + timedelta, time_util.py:177-205, 249-256 *)
Definition shift_us (us d : Z) : res Z := if datetime_ok (us + d) then Ok (us + d) else Err EOverflowError.
(** time_in_a_while, 177-186 *)
Definition time_in_a_while (now : Z) (d : delta) : res Z := do x <- timedelta d ; shift_us now x.
(** time_a_while_ago, 189-205 *)
Definition time_a_while_ago (now : Z) (d : delta) : res Z := do x <- timedelta d ; shift_us now (- x).
(** datetime.strftime with the default format: the fraction is dropped; time_util.py:208-243 *)
Definition datetime_str (us : Z) : ustr := strftime (gmtime_tm (us / 1000000)).
(** in_a_while, 208-225 and a_while_ago, 228-243, with the default format *)
Definition in_a_while (now : Z) (d : delta) : res ustr := do x <- time_in_a_while now d ; Ok (datetime_str x).
(** a_while_ago, time_util.py:228-243 *)
Definition a_while_ago (now : Z) (d : delta) : res ustr := do x <- time_a_while_ago now d ; Ok (datetime_str x).
(** shift_time, 249-256 (seconds) *)
Definition shift_time (us shift : Z) : res Z :=
  do x <- timedelta (mkDelta 0 shift 0 0 0 0 0) ; shift_us us x.
(** utc_time_sans_frac, 337-338, and epoch_in_a_while, 345-362.  Simplification: total_seconds()
    is exact; in fact it is the nearest double. *)
Definition total_seconds_int (us : Z) : Z := Z.quot us 1000000.
(** utc_time_sans_frac, time_util.py:337-338 *)
Definition utc_time_sans_frac (now : Z) : Z := total_seconds_int now.
(** epoch_in_a_while, time_util.py:345-362 *)
Definition epoch_in_a_while (now : Z) (d : delta) : res Z := do x <- time_in_a_while now d ; Ok (total_seconds_int x).
