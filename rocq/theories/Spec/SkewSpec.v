(** C170: arguments that are no numbers. *)
From Coq Require Import List NArith ZArith Bool String.
From Verif Require Import Base.Ustr Model.Value Model.Env.

(** None, texts, lists, dictionaries and messages *)
Definition not_number (v : value) : Prop := match v with VBool _ | VInt _ | VFlt _ => False | _ => True end.

(** the keyword arguments of one call are those of another, with [v] as [k] *)
Definition with_arg (k : ustr) (v : value) (K K' : kwargs) : Prop := kget K' k = Some v /\ forall k', k' <> k -> kget K' k' = kget K k'.
