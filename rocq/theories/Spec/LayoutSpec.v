(** Texts as Python has them: code points, surrogates included. *)
From Coq Require Import List NArith Bool.
From Verif Require Import Base.Ustr Model.Value Model.Sql.
Import ListNotations.

Definition code_points (s : ustr) : Prop := forall c, In c s -> (c < 1114112)%N.

Inductive texts_of_python : value -> Prop :=
| TpNull : texts_of_python VNone
| TpBool : forall b, texts_of_python (VBool b)
| TpInt : forall z, texts_of_python (VInt z)
| TpFlt : forall q, texts_of_python (VFlt q)
| TpStr : forall s, code_points s -> texts_of_python (VStr s)
| TpList : forall l, (forall x, In x l -> texts_of_python x) -> texts_of_python (VList l)
| TpDict : forall d, (forall k x, In (k, x) d -> code_points k /\ texts_of_python x) -> texts_of_python (VDict d)
| TpMsg : forall c d, (forall k x, In (k, x) d -> code_points k /\ texts_of_python x) -> texts_of_python (VMsg c d).

(** keys and data that are set are Unicode texts *)
Definition op_texts (o : qop) : Prop :=
  match o with QSet k v | QUpdate k v => scalars k = true /\ scalars v = true | _ => True end.
