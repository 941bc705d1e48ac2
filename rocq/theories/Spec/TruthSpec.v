(** Which values count as false ("Truth Value Testing" of the Python library reference). *)
From Coq Require Import List NArith ZArith QArith.
From Verif Require Import Base.Ustr Model.Cls Model.Value.
Import ListNotations.

Inductive counts_false : value -> Prop :=
| CfNone : counts_false VNone
| CfFalse : counts_false (VBool false)
| CfZero : counts_false (VInt 0)
| CfZeroF : forall q, q == 0 -> counts_false (VFlt q)
| CfText : counts_false (VStr [])
| CfList : counts_false (VList [])
| CfDict : counts_false (VDict [])
| CfMsg : forall c, counts_false (VMsg c []).
