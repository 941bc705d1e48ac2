(** Query strings that give a parameter a value; contents that survive a serialization method. *)
From Coq Require Import List NArith String.
From Verif Require Import Base.Ustr Model.Cls Model.Value Model.Pspec Model.Tables Spec.MessageSpec Spec.RoundTripSpec.
Import ListNotations.

(** one of the '&'-separated fields gives [k] a value *)
Definition gives (q k : ustr) : Prop := exists f v, In f (split_on 38 q) /\ field_gives f k v.

Inductive survives (C : clsdef) (lax : bool) (d : dict value) : ustr -> Prop :=
| SvUrl : content urlable (cd_param C) d -> lax = true \/ has_required C d -> survives C lax d (u "urlencoded")
| SvJson : content canon (cd_param C) d -> survives C lax d (u "json")
| SvDict : content canon (cd_param C) d -> survives C lax d (u "dict").
