(** What a JSON value is: null, booleans, integers, binary64 numbers, strings of Unicode scalar
    values, arrays, objects with distinct keys.  (Infinities and NaN are left out.) *)
From Coq Require Import List NArith ZArith QArith_base Qabs Qreduction Bool.
From Verif Require Import Base.Ustr Model.Value Spec.FloatSpec.
Import ListNotations.

Inductive json_value : value -> Prop :=
| JNull : json_value VNone
| JBool : forall b, json_value (VBool b)
| JInt : forall z, json_value (VInt z)
| JStr : forall s, scalars s = true -> json_value (VStr s)
| JArr : forall l, (forall x, In x l -> json_value x) -> json_value (VList l)
| JObj : forall d, NoDup (map fst d) ->
    (forall k x, In (k, x) d -> scalars k = true /\ json_value x) ->
    json_value (VDict d)
(** in lowest terms, as every floating-point number is kept *)
| JFlt : forall q, binary64 (Qabs q) -> q = Qred q -> json_value (VFlt q).

(** printable ASCII *)
Definition printable (c : N) : Prop := (32 <= c <= 126)%N.
