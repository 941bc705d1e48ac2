(** Labels of views. *)
From Coq Require Import List NArith Bool String.
From Verif Require Import Base.Ustr.
Import ListNotations.
Open Scope list_scope.
Open Scope N_scope.

(** the keys of the view with the label [b] are among those of the view with the label [a] *)
Definition inside (a b : ustr) : Prop := a = [] \/ b = a \/ b = a ++ u "_" \/ exists r, b = a ++ u "__" ++ r.
(** a label without underscores *)
Definition clean (a : ustr) : Prop := a <> [] /\ ~ In 95 a.
