(** Messages with the same parameters and values in different orders. *)
From Coq Require Import List.
From Verif Require Import Base.Ustr Model.Cls Model.Value.

(** Outcomes of verify() of two instances of a class: they return the same or both raise, and the instances have the same
    parameters and values afterwards.  Except for Evidence (which never returns, C80) the exceptions are the same. *)
Definition alike (c : cls) (r1 r2 : dict value * res bool) : Prop :=
  (forall k, dget (fst r1) k = dget (fst r2) k) /\
  (forall b, snd r1 = Ok b <-> snd r2 = Ok b) /\
  (subclass c C_ida_Evidence = false -> snd r1 = snd r2).
