(** Histories of operations on one message (src/oidcmsg/message.py:627-679,701-737,763-775). *)
From Coq Require Import List NArith.
From Verif Require Import Base.Ustr Model.Value Model.Pspec Model.Message Spec.MessageSpec.
Import ListNotations.

(** the result of an operation of message.py:627-775 as an outcome *)
Definition outcome (r : dict value * res unit) : dict value * mout :=
  match r with (d, Ok _) => (d, RNone) | (d, Err e) => (d, RExn e) end.

(** one operation of class Message; message.py:627-775 *)
Definition mstep (C : clsdef) (d : dict value) (o : mop) : dict value * mout :=
  match o with
  | OSet k v => outcome (setitem C d k v)
  | ODel k => outcome (delitem d k)
  | OUpdate e => outcome (update d (VDict e))
  | OGet k dv => (d, RVal (get d k dv))
  | OItem k => (d, match getitem d k with Ok v => RVal v | Err e => RExn e end)
  | OIn k => (d, RBool (dhas d k))
  | OLen => (d, RNat (List.length d))
  | OKeys => (d, RKeys (dkeys d))
  end.

(** a history of operations, message.py:627-775 *)
Fixpoint mruns (C : clsdef) (d : dict value) (os : list mop) : dict value * list mout :=
  match os with
  | [] => (d, [])
  | o :: r => let (d1, x) := mstep C d o in let (d2, xs) := mruns C d1 r in (d2, x :: xs)
  end.
