(** Universal newlines, as the documentation of Python's io.TextIOWrapper has them. *)
From Coq Require Import List NArith.
From Verif Require Import Base.Ustr.
Import ListNotations.
Open Scope N_scope.

(** the text [s] in a file is read as [r] *)
Inductive read_as : ustr -> ustr -> Prop :=
| RaNil : read_as [] []
| RaPair : forall s r, read_as s r -> read_as (13 :: 10 :: s) (10 :: r)
| RaReturn : forall s r, (forall s', s <> 10 :: s') -> read_as s r -> read_as (13 :: s) (10 :: r)
| RaOther : forall c s r, c <> 13 -> read_as s r -> read_as (c :: s) (c :: r).

(** the white space of Unicode, as str.isspace() has it *)
Definition white (c : N) : Prop :=
  In c [9; 10; 11; 12; 13; 28; 29; 30; 31; 32; 133; 160; 5760; 8192; 8193; 8194; 8195; 8196; 8197; 8198; 8199; 8200; 8201; 8202; 8232; 8233; 8239; 8287; 12288].
(** [r] is [s] without the white space at both ends *)
Definition trimmed (s r : ustr) : Prop := exists a b, s = a ++ r ++ b /\ Forall white a /\ Forall white b /\
  (forall c r', r = c :: r' -> ~ white c) /\ (forall c r', r = r' ++ [c] -> ~ white c).
