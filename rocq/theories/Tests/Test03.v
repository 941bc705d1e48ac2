(** Generated by tools/mktests.py: the tests of /repo/tests/test_03_time_util.py on the model. *)
From Coq Require Import List NArith ZArith QArith Bool String.
From Verif Require Import Base.Ustr Base.Percent Model.Cls Model.Value Model.Pspec Model.Tables Model.Json Model.Message Model.Env Model.Verify
  Model.Jose Model.Dispatch Model.Serializers Model.RequestObject Model.IdentityAssurance Model.Calendar Model.TimeUtil Model.Config Tests.TestKit.
Import ListNotations.
Open Scope list_scope.
Open Scope N_scope.

Open Scope Z_scope.
Definition z_is (r : res Z) (z : Z) : bool := match r with Ok x => x =? z | Err _ => false end.
Definition b_is (r : res bool) (b : bool) : bool := match r with Ok x => Bool.eqb x b | Err _ => false end.
Definition added (text dur : ustr) : res (option tm) := do t <- str_to_time text ; match t with Some t => add_duration 1000 t dur | None => Ok None end.
Definition tm_is (r : res (option tm)) (l : list Z) : bool := match r with Ok (Some t) => forallb (fun p => fst p =? snd p) (combine l (tm_list t)) | _ => false end.
(** a time of the year 2020 for the tests that ask the clock *)
Definition now := 1600000000.
Definition micro := now * 1000000.
Definition secs (n : Z) : delta := {| dl_days := 0; dl_seconds := n; dl_us := 0; dl_ms := 0; dl_minutes := 0; dl_hours := 0; dl_weeks := 0 |}.

(** test_03_time_util.py:33-39 *)
Example test_f_quotient :
  all [
  z_is (fq (-1) 3 0) (-1);
  z_is (fq (0) 3 0) (0);
  z_is (fq (1) 3 0) (0);
  z_is (fq (2) 3 0) (0);
  z_is (fq (3) 3 0) (1)] = true.
Proof. vm_compute. reflexivity. Qed.

(** test_03_time_util.py:42-49 *)
Example test_modulo :
  all [
  z_is (modulo (-1) 3 0) (2);
  z_is (modulo (0) 3 0) (0);
  z_is (modulo (1) 3 0) (1);
  z_is (modulo (2) 3 0) (2);
  z_is (modulo (3) 3 0) (0)] = true.
Proof. vm_compute. reflexivity. Qed.

(** test_03_time_util.py:52-57 *)
Example test_f_quotient_2 :
  all [
  z_is (fq (0) 1 13) (-1);
  z_is (fq (1) 1 13) (0);
  z_is (fq (2) 1 13) (0);
  z_is (fq (3) 1 13) (0);
  z_is (fq (4) 1 13) (0);
  z_is (fq (5) 1 13) (0);
  z_is (fq (6) 1 13) (0);
  z_is (fq (7) 1 13) (0);
  z_is (fq (8) 1 13) (0);
  z_is (fq (9) 1 13) (0);
  z_is (fq (10) 1 13) (0);
  z_is (fq (11) 1 13) (0);
  z_is (fq (12) 1 13) (0);
  z_is (fq (13) 1 13) (1)] = true.
Proof. vm_compute. reflexivity. Qed.

(** test_03_time_util.py:60-64 *)
Example test_modulo_2 :
  all [
  z_is (modulo (0) 1 13) (12);
  z_is (modulo (1) 1 13) (1);
  z_is (modulo (2) 1 13) (2);
  z_is (modulo (3) 1 13) (3);
  z_is (modulo (4) 1 13) (4);
  z_is (modulo (5) 1 13) (5);
  z_is (modulo (6) 1 13) (6);
  z_is (modulo (7) 1 13) (7);
  z_is (modulo (8) 1 13) (8);
  z_is (modulo (9) 1 13) (9);
  z_is (modulo (10) 1 13) (10);
  z_is (modulo (11) 1 13) (11);
  z_is (modulo (12) 1 13) (12);
  z_is (modulo (13) 1 13) (1)] = true.
Proof. vm_compute. reflexivity. Qed.

(** test_03_time_util.py:69-77 *)
Example test_parse_duration :
  all [
  match parse_duration (u "P1Y3M5DT7H10M3.3S") with Ok (pos, d) => Bool.eqb pos true && (d_year d =? 1) && (d_mon d =? 3) && (d_mday d =? 5) && (d_hour d =? 7) && (d_min d =? 10) && match d_sec d with DFlt s => ueqb s (u "3.3") | _ => false end | _ => false end] = true.
Proof. vm_compute. reflexivity. Qed.

(** test_03_time_util.py:80-88 *)
Example test_add_duration_1 :
  all [
  tm_is (added (u "2000-01-12T12:13:14Z") (u "P1Y3M5DT7H10M3S")) [2001; 4; 17; 19; 23; 17]] = true.
Proof. vm_compute. reflexivity. Qed.

(** test_03_time_util.py:91-99 *)
Example test_add_duration_2 :
  all [
  tm_is (added (u "2000-01-12T00:00:00Z") (u "PT33H")) [2000; 1; 14; 9; 0; 0]] = true.
Proof. vm_compute. reflexivity. Qed.

(** test_03_time_util.py:102-114 *)
Example test_add_duration_3 :
  all [
  tm_is (added (u "2000-01-12T00:00:00Z") (u "P32D")) [2000; 2; 12; 0; 0; 0; 5; 43; 0]] = true.
Proof. vm_compute. reflexivity. Qed.

(** test_03_time_util.py:117-120 *)
Example test_add_duration_4 :
  all [
  match added (u "2000-01-12T00:00:00Z") (u "-P32D") with Ok None => true | _ => false end] = true.
Proof. vm_compute. reflexivity. Qed.

(** test_03_time_util.py:123-125 *)
Example test_str_to_time :
  all [
  match str_to_time (u "2000-01-12T00:00:00Z") with Ok (Some t) => z_is (timegm (tm_year t) (tm_mon t) (tm_mday t) (tm_hour t) (tm_min t) (tm_sec t)) 947635200 | _ => false end] = true.
Proof. vm_compute. reflexivity. Qed.

(** test_03_time_util.py:128-132 *)
Example test_instant :
  all [
  match (do s <- instant now ; str_to_time s), gmtime now with Ok (Some t), Ok n => tm_le t n | _, _ => false end] = true.
Proof. vm_compute. reflexivity. Qed.

(** test_03_time_util.py:135-142 *)
Example test_valid :
  all [
  b_is (valid now (PStr (u "2000-01-12T00:00:00Z"))) false;
  b_is (valid now (PStr (u "2021-01-12T00:00:00Z"))) true;
  b_is (do s <- instant now ; valid now (PStr s)) false;
  b_is (do s <- in_a_while micro (secs 10) ; valid now (PStr s)) true] = true.
Proof. vm_compute. reflexivity. Qed.

(** test_03_time_util.py:145-147 *)
Example test_timeout :
  all [
  b_is (do s <- in_a_while micro (secs (-1)) ; valid now (PStr s)) false] = true.
Proof. vm_compute. reflexivity. Qed.

(** test_03_time_util.py:150-153 *)
Example test_before :
  all [
  b_is (before now (PStr (u "2020-01-01T00:00:00Z"))) false;
  b_is (before now (PStr (u "2021-01-01T00:00:00Z"))) true] = true.
Proof. vm_compute. reflexivity. Qed.

(** test_03_time_util.py:156-159 *)
Example test_after :
  all [
  b_is (after now (PStr (u "2020-01-01T00:00:00Z"))) true;
  b_is (after now (PStr (u "2021-01-01T00:00:00Z"))) false] = true.
Proof. vm_compute. reflexivity. Qed.

(** test_03_time_util.py:162-165 *)
Example test_not_before :
  all [
  b_is (not_before now (PStr (u "2020-01-01T00:00:00Z"))) true;
  b_is (not_before now (PStr (u "2021-01-01T00:00:00Z"))) false] = true.
Proof. vm_compute. reflexivity. Qed.

(** test_03_time_util.py:168-171 *)
Example test_not_on_or_after :
  all [
  b_is (not_on_or_after now (PStr (u "2020-01-01T00:00:00Z"))) false;
  b_is (not_on_or_after now (PStr (u "2021-01-01T00:00:00Z"))) true] = true.
Proof. vm_compute. reflexivity. Qed.

(** test_03_time_util.py:174-182 *)
Example test_parse_duration_1 :
  all [
  match parse_duration (u "-P1Y3M5DT7H10M3.3S") with Ok (pos, d) => Bool.eqb pos false && (d_year d =? 1) && (d_mon d =? 3) && (d_mday d =? 5) && (d_hour d =? 7) && (d_min d =? 10) && match d_sec d with DFlt s => ueqb s (u "3.3") | _ => false end | _ => false end] = true.
Proof. vm_compute. reflexivity. Qed.

(** test_03_time_util.py:193-195 *)
Example test_parse_duration_error :
  all [
  raises ETimeUtilError (parse_duration (u "-P1Y-3M5DT7H10M3.3S"));
  raises ETimeUtilError (parse_duration (u "-P1Y3M5DU7H10M3.3S"));
  raises ETimeUtilError (parse_duration (u "-P1Y3M5DT"));
  raises ETimeUtilError (parse_duration (u "-P1Y3M5DU7H10M3.S"));
  raises ETimeUtilError (parse_duration (u "-P1Y3M5DT7H10MxS"));
  raises ETimeUtilError (parse_duration (u "-P1Y4M4DT7H10.5M3S"))] = true.
Proof. vm_compute. reflexivity. Qed.

(** test_03_time_util.py:198-202 *)
Example test_time_a_while_ago :
  all [
  z_is (do x <- time_a_while_ago micro (secs 10) ; Ok (micro - x)) 10000000] = true.
Proof. vm_compute. reflexivity. Qed.

(** test_03_time_util.py:205-210 *)
Example test_a_while_ago :
  all [
  match (do s <- a_while_ago micro (secs 10) ; str_to_time s) with Ok (Some t) => z_is (timegm (tm_year t) (tm_mon t) (tm_mday t) (tm_hour t) (tm_min t) (tm_sec t)) (now - 10) | _ => false end] = true.
Proof. vm_compute. reflexivity. Qed.

(** test_03_time_util.py:213-217 *)
Example test_shift_time :
  all [
  z_is (do x <- shift_time micro 10 ; Ok (x - micro)) 10000000] = true.
Proof. vm_compute. reflexivity. Qed.

(** test_03_time_util.py:220-222 *)
Example test_str_to_time_str_error :
  all [
  raises EAttributeError (str_to_time (u "2000-01-12T00:00:00ZABC"))] = true.
Proof. vm_compute. reflexivity. Qed.

(** test_03_time_util.py:225-227 *)
Example test_str_to_time_1 :
  all [
  match str_to_time [] with Ok None => true | _ => false end] = true.
Proof. vm_compute. reflexivity. Qed.

(** test_03_time_util.py:236-238 *)
Example test_before_0 :
  all [
  b_is (before now (PStr [])) true;
  b_is (before now (PInt 0)) true] = true.
Proof. vm_compute. reflexivity. Qed.

(** test_03_time_util.py:241-244 *)
Example test_before_int :
  all [
  b_is (before now (PInt (now - 1))) false;
  b_is (before now (PInt (now + 2))) true] = true.
Proof. vm_compute. reflexivity. Qed.

(** test_03_time_util.py:247-250 *)
Example test_later_than_int :
  all [
  b_is (later_than (PInt now) (PInt (now - 1))) true;
  b_is (later_than (PInt (now - 1)) (PInt now)) false] = true.
Proof. vm_compute. reflexivity. Qed.

(** test_03_time_util.py:253-257 *)
Example test_later_than_str :
  all [
  b_is (do a <- in_a_while micro (secs 10) ; do b <- in_a_while micro (secs 20) ; later_than (PStr b) (PStr a)) true;
  b_is (do a <- in_a_while micro (secs 10) ; do b <- in_a_while micro (secs 20) ; later_than (PStr a) (PStr b)) false] = true.
Proof. vm_compute. reflexivity. Qed.

(** test_03_time_util.py:260-263 *)
Example test_utc_time :
  all [
  utc_time_sans_frac (micro + 999999) =? now] = true.
Proof. vm_compute. reflexivity. Qed.
