(** What a context answers. *)
From Coq Require Import List NArith ZArith Bool String.
From Verif Require Import Base.Ustr Base.Utf8 Model.Cls Model.Value Model.Pspec Model.Tables Model.Message Model.FileStore Model.Context
  Spec.StorageSpec.
Import ListNotations.
Open Scope list_scope.
Open Scope N_scope.

(** the form in which a value is kept: a message as its dictionary; None: it has none *)
Definition kept (v : value) : option value :=
  match v with
  | VMsg c m => match to_dict (cdef c) m with Ok r => Some (VDict r) | Err _ => None end
  | _ => Some v
  end.
(** the last value of an item that was kept *)
Definition cafter (k : ustr) (a : option value) (o : cop) : option value :=
  match o with
  | CSet k' v => if ueq_dec k' k then match kept v with Some w => Some w | None => a end else a
  | CGet _ => a
  end.
Definition clatest (k : ustr) (h : list cop) : option value := fold_left (cafter k) h None.

(** [r] is the answer for an item with the value [w]: the value, or the bytes of the seed *)
Definition told (k : ustr) (w : value) (r : res got) : Prop :=
  (k <> u "seed" -> r = Ok (GVal w)) /\
  (k = u "seed" -> forall s b, w = VStr s -> utf8_encode s = Some b -> r = Ok (GBytes b)) /\
  (k = u "seed" -> forall s, w = VStr s -> utf8_encode s = None -> r = Err EUnicodeEncodeError) /\
  (k = u "seed" -> (forall s, w <> VStr s) -> r = Err ETypeError).

(** histories that the theorems on file storage are about *)
Definition clegal (C : conf) (o : cop) : Prop :=
  match o with
  | CSet k v => plain_key k /\ forall w, kept v = Some w -> exists x, storable C w x
  | CGet k => plain_key k
  end.
