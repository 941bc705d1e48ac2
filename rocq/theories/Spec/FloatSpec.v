(** C151: binary64 numbers (IEEE 754), without infinities and NaN, and rounding to them. *)
From Coq Require Import ZArith QArith_base Qabs Qpower Qreduction.
Open Scope Q_scope.

(** a binary64 number without sign *)
Definition binary64 (q : Q) : Prop :=
  exists m e : Z, (0 <= m < 2 ^ 53)%Z /\ (-1074 <= e <= 971)%Z /\ q == inject_Z m * 2 ^ e.

(** [r] is rounded to [q]: to the nearest multiple of a unit that leaves it 53 binary digits, unless that unit is too small; of two
    that are equally near to the one with an even multiple; numbers are in lowest terms *)
Definition rounds (r q : Q) : Prop :=
  exists m e : Z, (-1074 <= e)%Z /\
    r < 2 ^ 53 * 2 ^ e /\ (e = (-1074)%Z \/ 2 ^ 52 * 2 ^ e <= r) /\
    (Qabs (r - inject_Z m * 2 ^ e) < (1 # 2) * 2 ^ e \/
     Qabs (r - inject_Z m * 2 ^ e) == (1 # 2) * 2 ^ e /\ Z.Even m) /\
    q == inject_Z m * 2 ^ e /\ q = Qred q /\ q < 2 ^ 1024.

(** the same for numbers of either sign *)
Definition rounded (r q : Q) : Prop := (0 <= r /\ rounds r q) \/ (r < 0 /\ rounds (- r) (- q)).
