(** What a zone offset in a time stamp means. *)
From Coq Require Import List NArith ZArith Bool String.
From Verif Require Import Base.Ustr Spec.TimeSpec.
Import ListNotations.
Open Scope list_scope.
Open Scope Z_scope.

(** the text of an offset from UTC, and the offset in seconds: Z, and (with or without colons)
    sign, hours, minutes and perhaps seconds *)
Inductive zone_offset : ustr -> Z -> Prop :=
| zone_utc : zone_offset (u "Z") 0
| zone_hm : forall (sg : N) c h m, sg = 43%N \/ sg = 45%N -> c = [] \/ c = u ":" -> 0 <= h < 24 -> 0 <= m < 60 ->
    zone_offset (sg :: dig2 h ++ c ++ dig2 m) (if (sg =? 45)%N then - (h * 3600 + m * 60 + 0) else h * 3600 + m * 60 + 0)
| zone_hms : forall (sg : N) c h m s, sg = 43%N \/ sg = 45%N -> c = [] \/ c = u ":" ->
    0 <= h < 24 -> 0 <= m < 60 -> 0 <= s < 60 ->
    zone_offset (sg :: dig2 h ++ c ++ dig2 m ++ c ++ dig2 s)
      (if (sg =? 45)%N then - (h * 3600 + m * 60 + s) else h * 3600 + m * 60 + s).
