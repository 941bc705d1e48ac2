(** C150: exactly which texts are read as points in time, and as which. *)
From Coq Require Import List NArith ZArith Bool String.
From Verif Require Import Base.Ustr Model.Value Model.Calendar Model.TimeUtil Spec.VerifySpec Spec.TimeSpec Spec.ZoneSpec Spec.StampSpec
  Proofs.StampIff.
Import ListNotations.
Open Scope list_scope.
Open Scope N_scope.

(** time_util.str_to_time: a date that exists and a time of day, Z at the end, perhaps a fraction of a
    second; leap seconds count on *)
Theorem C150_time : forall s f, str_to_time s = Ok (Some f) <-> exists y m d h mi se z,
  time_text s y m d h mi se /\ shows z y m d h mi 0 /\ gmtime (z + Z.of_N se) = Ok f.
Proof. exact time_iff. Qed.
Print Assumptions C150_time.

(** identity_assurance.time_stamp_deser: the same with an offset from UTC, and no leap seconds *)
Theorem C150_stamp : forall s z, from_iso_time s = Ok z <-> exists y m d h mi se zt off,
  moment_text s zt y m d h mi se /\ se <= 59 /\ zone_offset zt off /\ shows (z + off) y m d h mi se.
Proof. exact stamp_iff. Qed.
Print Assumptions C150_stamp.

(** identity_assurance.date_deser: any date but the first *)
Theorem C150_date : forall s z, from_iso_date s = Ok z <-> exists y m d,
  date_text s y m d /\ (y, m, d) <> (1, 1, 1) /\ shows z y m d 0 0 0.
Proof. exact date_iff. Qed.
Print Assumptions C150_date.

(** the two deserializers: the texts just described, numbers as they are, and nothing else *)
Theorem C150_values : forall b v,
  (forall s, v = VStr s -> forall w, stamp_deser b v = Ok w <-> exists z, (if b then from_iso_date s else from_iso_time s) = Ok z /\ w = VFlt (QArith_base.inject_Z z)) /\
  ((exists z, v = VInt z) \/ (exists x, v = VBool x) \/ (exists q, v = VFlt q) -> stamp_deser b v = Ok v) /\
  (v = VNone \/ (exists l, v = VList l) \/ (exists d, v = VDict d) \/ (exists c d, v = VMsg c d) -> stamp_deser b v = Err ETypeError).
Proof. exact stamp_values. Qed.
Print Assumptions C150_values.

Example C150_cases :
  from_iso_time (u "2020-02-29T12:30:00+01:30") = Ok 1582974000%Z /\
  from_iso_time (u "2020-02-29T12:60:00Z") = Err EValueError /\ from_iso_time (u "2020-02-29T24:00:00Z") = Err EValueError /\
  from_iso_time (u "2020-02-29T23:59:60Z") = Err EValueError /\ from_iso_time (u "2021-02-29T12:30:00Z") = Err EValueError /\
  from_iso_time (u "2020-2-9t1:2:3Z") = Ok 1581210123%Z /\
  from_iso_date (u "2020-2- 9") = Ok 1581206400%Z /\ from_iso_date (u "0001-01-01") = Err EValueError /\ from_iso_date (u "2020-02-30") = Err EValueError /\
  (exists t, str_to_time (u "2016-12-31T23:59:60Z") = Ok (Some t) /\ tm_year t = 2017%Z /\ tm_sec t = 0%Z) /\
  (exists t, str_to_time (u "2016-12-31T23:59:59.123Z" ++ [10]) = Ok (Some t) /\ tm_year t = 2016%Z /\ tm_sec t = 59%Z) /\
  str_to_time (u "2016-12-31T23:60:00Z") = Err EAttributeError /\ str_to_time (u "2016-12-31T23:59:62Z") = Err EAttributeError /\
  str_to_time (u "2016-02-30T23:59:59.5Z") = Err EValueError.
Proof. repeat (split; [first [vm_compute; reflexivity | eexists; vm_compute; repeat split; reflexivity]|]). vm_compute. reflexivity. Qed.
