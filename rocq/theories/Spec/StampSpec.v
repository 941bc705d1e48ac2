(** C150: the texts that denote a point in time. *)
From Coq Require Import List NArith ZArith Bool String.
From Verif Require Import Base.Ustr Model.Value Model.TimeUtil Spec.VerifySpec Spec.TimeSpec Spec.ZoneSpec.
Import ListNotations.
Open Scope list_scope.
Open Scope N_scope.

(** two digits, or one *)
Definition hour_text (h : N) (t : ustr) : Prop := h <= 23 /\ (t = two_digits h \/ (h <= 9 /\ t = [48 + h])).
Definition minute_text (m : N) (t : ustr) : Prop := m <= 59 /\ (t = two_digits m \/ (m <= 9 /\ t = [48 + m])).
(** with leap seconds *)
Definition second_text (s : N) (t : ustr) : Prop := s <= 61 /\ (t = two_digits s \/ (s <= 9 /\ t = [48 + s])).

(** [s] is a date that exists, T, a time of day, and [tail] *)
Definition moment_text (s tail : ustr) (y m d h mi se : N) : Prop :=
  exists ty tm td t th tmi ts, year_text y ty /\ month_text m tm /\ day_text d td /\ (t = 84 \/ t = 116) /\
    hour_text h th /\ minute_text mi tmi /\ second_text se ts /\ calendar_date y m d /\
    s = ty ++ [45] ++ tm ++ [45] ++ td ++ [t] ++ th ++ [58] ++ tmi ++ [58] ++ ts ++ tail.
Definition date_text (s : ustr) (y m d : N) : Prop :=
  exists ty tm td, year_text y ty /\ month_text m tm /\ day_text d td /\ calendar_date y m d /\ s = ty ++ [45] ++ tm ++ [45] ++ td.
(** the form with a fraction of a second has fixed width; a line feed may follow *)
Definition fraction_text (s : ustr) (y m d h mi se : N) : Prop :=
  exists ds nl, forallb is_digit ds = true /\ (nl = [] \/ nl = [10]) /\ y <= 9999 /\ h <= 23 /\ mi <= 59 /\ se <= 61 /\ calendar_date y m d /\
    s = two_digits (y / 100) ++ two_digits (y mod 100) ++ [45] ++ two_digits m ++ [45] ++ two_digits d ++ [84] ++
        two_digits h ++ [58] ++ two_digits mi ++ [58] ++ two_digits se ++ [46] ++ ds ++ [90] ++ nl.
Definition time_text (s : ustr) (y m d h mi se : N) : Prop :=
  (exists z, (z = 90 \/ z = 122) /\ moment_text s [z] y m d h mi se) \/ fraction_text s y m d h mi se.

(** the instant [z] in seconds since the epoch has these date and time of day *)
Definition shows (z : Z) (y m d h mi se : N) : Prop :=
  has_fields z (Z.of_N y) (Z.of_N m) (Z.of_N d) (Z.of_N h) (Z.of_N mi) (Z.of_N se).
