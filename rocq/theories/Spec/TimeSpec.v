(** What the properties of time_util.py mean. *)
From Coq Require Import List NArith ZArith Bool String.
From Verif Require Import Base.Ustr Model.Value Model.TimeUtil.
Import ListNotations.
Open Scope list_scope.
Open Scope Z_scope.

(** the Gregorian calendar *)
Definition leap_z (y : Z) : Prop := y mod 4 = 0 /\ (y mod 100 <> 0 \/ y mod 400 = 0).
Definition month_length (y m l : Z) : Prop :=
  (In m [1; 3; 5; 7; 8; 10; 12] /\ l = 31) \/ (In m [4; 6; 9; 11] /\ l = 30) \/
  (m = 2 /\ ((leap_z y /\ l = 29) \/ (~ leap_z y /\ l = 28))).

(** the date after (y, m, d) *)
Definition next_date (y m d : Z) (n : Z * Z * Z) : Prop :=
  exists l, month_length y m l /\
    n = (if d <? l then (y, m, d + 1) else if m <? 12 then (y, m + 1, 1) else (y + 1, 1, 1)).

(** an instant, in seconds since the epoch, has these fields *)
Definition has_fields (z y m d h mi s : Z) : Prop :=
  exists t, gmtime z = Ok t /\ tm_year t = y /\ tm_mon t = m /\ tm_mday t = d /\
    tm_hour t = h /\ tm_min t = mi /\ tm_sec t = s.
Definition representable (z : Z) : Prop := exists t, gmtime z = Ok t.

(** decimal digits *)
Definition dig (z : Z) : N := Z.to_N (48 + z mod 10).
Definition dig2 (z : Z) : ustr := [dig (z / 10); dig z].
Definition dig4 (z : Z) : ustr := [dig (z / 1000); dig (z / 100); dig (z / 10); dig z].
(** YYYY-MM-DDThh:mm:ss *)
Definition iso_base (t : tm) : ustr :=
  dig4 (tm_year t) ++ u "-" ++ dig2 (tm_mon t) ++ u "-" ++ dig2 (tm_mday t) ++ u "T" ++
  dig2 (tm_hour t) ++ u ":" ++ dig2 (tm_min t) ++ u ":" ++ dig2 (tm_sec t).

(** ISO durations *)
Definition part (c : N) (o : option N) : ustr := match o with Some n => dec_N n ++ [c] | None => [] end.
Definition some_of (l : list (option N)) : bool := existsb (fun o => match o with Some _ => true | None => false end) l.
Definition duration_text (positive : bool) (y mo d h mi s : option N) : ustr :=
  (if positive then [] else u "-") ++ u "P" ++ part 89 y ++ part 77 mo ++ part 68 d ++
  (if some_of [h; mi; s] then u "T" ++ part 72 h ++ part 77 mi ++ part 83 s else []).
Definition num (o : option N) : Z := match o with Some n => Z.of_N n | None => 0 end.
(** a duration of whole numbers, none below zero *)
Definition non_negative (d : duration) : Prop :=
  0 <= d_year d /\ 0 <= d_mon d /\ 0 <= d_mday d /\ 0 <= d_hour d /\ 0 <= d_min d /\
  exists s, d_sec d = DInt s /\ 0 <= s.
