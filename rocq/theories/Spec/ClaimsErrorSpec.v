(** Requests for verified claims whose parts have the right shapes. *)
From Coq Require Import List NArith ZArith QArith Bool String.
From Verif Require Import Base.Ustr Model.Cls Model.Value Model.Pspec Model.Tables Spec.RaiseSpec Spec.IdaSpec.
Import ListNotations.
Open Scope list_scope.
Open Scope N_scope.

(** a request for a single claim: if it is an object, the values can be gone through, and the purpose, if there is one, is a text *)
Definition single_shape (v : value) : Prop := forall d, v = VDict d ->
  (forall x, dget d (u "values") = Some x -> exists l, elements x l) /\
  (forall x, dget d (u "purpose") = Some x -> truthy x = true -> has_form Texts x).

(** ... and one for a member of a certain type: null; objects where claims of a class are expected, their members
    having the shapes for the class, and anything for a class without members; lists of such where lists are expected *)
Inductive shaped : vtyp -> value -> Prop :=
| ShSingle : forall t v, simple t -> single_shape v -> shaped t v
| ShDict : forall v, shaped TDict v
| ShNull : forall t, shaped t VNone
| ShObject : forall c v d, mapping v d ->
    (forall k s x, In (k, s) (cd_param (cdef c)) -> dget d k = Some x -> shaped (p_typ s) x) -> shaped (TMsg c) v
| ShAny : forall c v, cd_param (cdef c) = [] -> shaped (TMsg c) v
| ShList : forall t v l, elements v l -> (forall x, In x l -> shaped t x) -> shaped (TList t) v.
