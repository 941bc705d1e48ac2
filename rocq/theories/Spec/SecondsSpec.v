(** The values of texts that Python reads as floating point numbers ("float()" of the library reference). *)
From Coq Require Import List NArith ZArith QArith Bool String.
From Verif Require Import Base.Ustr Spec.NumeralSpec Spec.FloatSpec.
Import ListNotations.
Open Scope list_scope.
Open Scope N_scope.

(** how many digits, not counting underscores *)
Definition places (s : ustr) : nat := List.length (filter (fun c => negb (c =? 95)) s).
(** the digits as a whole number, and how many of them are behind the point *)
Inductive mantissa_is : ustr -> N -> nat -> Prop :=
| MiInt : forall d n, numeral d n -> mantissa_is d n 0
| MiPoint : forall d n, numeral d n -> mantissa_is (d ++ u ".") n 0
| MiFrac : forall f n, numeral f n -> mantissa_is (u "." ++ f) n (places f)
| MiBoth : forall d f n m, numeral d n -> numeral f m -> mantissa_is (d ++ u "." ++ f) (n * 10 ^ N.of_nat (places f) + m) (places f).
Inductive exponent_is : ustr -> Z -> Prop :=
| EiNone : exponent_is [] 0
| EiSome : forall e g d n, e = 101 \/ e = 69 -> sign g -> numeral d n ->
    exponent_is (e :: g ++ d) (if ueqb g (u "-") then - Z.of_N n else Z.of_N n)%Z.
(** [s] without white space and sign is [n] times ten to the power [k]; [neg]: there is a minus *)
Definition decimal_text (s : ustr) (neg : bool) (n : N) (k : Z) : Prop := exists a g m e b p x, s = a ++ g ++ (m ++ e) ++ b /\ blanks a /\ blanks b /\ sign g /\
  neg = ueqb g (u "-") /\ mantissa_is m n p /\ exponent_is e x /\ k = (x - Z.of_nat p)%Z.
(** a floating point number without a minus in front, or infinity, or not a number *)
Definition unsigned_float (s : ustr) : Prop := exists a g t b, s = a ++ g ++ t ++ b /\ blanks a /\ blanks b /\ (g = [] \/ g = u "+") /\
  (special t \/ exists m e, t = m ++ e /\ mantissa m /\ exponent e).
