(** What it means that changing a list of one message leaves the other messages alone. *)
From Coq Require Import List NArith ZArith Bool String.
From Verif Require Import Base.Ustr Model.Value Model.Pspec Model.Message Model.Heap.
Import ListNotations.

(** from W to W' only the parameter k of instance i changes: not the other parameters and
    instances, and not the instances made afterwards *)
Definition only (C : clsdef) (W W' : world) (i : nat) (k : ustr) : Prop :=
  (forall j k', j <> i \/ k' <> k -> look W' j k' = look W j k') /\
  List.length (w_inst W') = List.length (w_inst W) /\
  forall sd kw k', look (step C W' (New sd kw)) (List.length (w_inst W)) k' = look (step C W (New sd kw)) (List.length (w_inst W)) k'.

(** the operation gives parameter k of instance i a value of its own *)
Definition gives (C : clsdef) (W : world) (o : op) (i : nat) (k : ustr) : Prop :=
  match o with
  | Set_ j k' v => j = i /\ k' = k /\ exists x, (match dget (cd_param C) k with Some s => add_val the_lib s v | None => Ok (Some v) end) = Ok (Some x)
  | New _ kw => i = List.length (w_inst W) /\ List.length (w_inst (step C W o)) <> i /\ exists v x, In (k, v) kw /\ fd_entry the_lib (cd_param C) k v = Ok (Some x)
  | _ => False
  end.
