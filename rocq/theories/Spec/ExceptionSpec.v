(** What an except clause catches. *)
From Coq Require Import List NArith Bool String.
From Verif Require Import Base.Ustr Model.Value Model.Exceptions.
Import ListNotations.
Open Scope list_scope.

(** the class [c] is [b] or is derived from it *)
Inductive derived : ustr -> ustr -> Prop :=
| DvSame : forall c, derived c c
| DvStep : forall c c' b, In (c, c') exception_bases -> derived c' b -> derived c b.
(** the exception is an instance of one of the classes *)
Definition instance (e : exn) (names : list ustr) : Prop := exists c b, exn_class e = Some c /\ In b names /\ derived c b.
