(** What class Message inherits from collections.abc.MutableMapping (src/oidcmsg/message.py:29;
    pop, popitem, clear and setdefault of the standard library's _collections_abc.py, which call the
    methods __getitem__, __setitem__, __delitem__ and __iter__ of message.py:49-55,636-643,701-729). *)
From Coq Require Import List NArith.
From Verif Require Import Base.Ustr Model.Value Model.Pspec Model.Message Spec.MappingSpec.
Import ListNotations.

(** MutableMapping.pop; inherited by Message, message.py:29 *)
Definition m_pop (d : dict value) (k : ustr) (default : option value) : dict value * res value :=
  match getitem d k with
  | Ok v => match delitem d k with (d1, Ok _) => (d1, Ok v) | (d1, Err e) => (d1, Err e) end
  | Err EKeyError => (d, match default with Some v => Ok v | None => Err EKeyError end)
  | Err e => (d, Err e)
  end.

(** MutableMapping.popitem: the first key of the iterator; inherited by Message, message.py:29 *)
Definition m_popitem (d : dict value) : dict value * res (ustr * value) :=
  match dkeys d with
  | [] => (d, Err EKeyError)
  | k :: _ =>
      match getitem d k with
      | Ok v => match delitem d k with (d1, Ok _) => (d1, Ok (k, v)) | (d1, Err e) => (d1, Err e) end
      | Err e => (d, Err e)
      end
  end.

(** MutableMapping.clear: popitem until it raises KeyError.  The fuel is one more than there are
    entries. inherited by Message, message.py:29 *)
Fixpoint clear_loop (n : nat) (d : dict value) : dict value * res unit :=
  match n with
  | O => (d, Err OutOfFuel)
  | S n => match m_popitem d with
           | (d1, Ok _) => clear_loop n d1
           | (d1, Err EKeyError) => (d1, Ok tt)
           | (d1, Err e) => (d1, Err e)
           end
  end.
(** MutableMapping.clear, inherited by Message, message.py:29 *)
Definition m_clear (d : dict value) : dict value * res unit := clear_loop (S (List.length d)) d.

(** MutableMapping.setdefault: returns its argument when the key was missing, whatever __setitem__
    made of it; inherited by Message, message.py:29 *)
Definition m_setdefault (C : clsdef) (d : dict value) (k : ustr) (v : value) : dict value * res value :=
  match getitem d k with
  | Ok w => (d, Ok w)
  | Err EKeyError => match setitem C d k v with (d1, Ok _) => (d1, Ok v) | (d1, Err e) => (d1, Err e) end
  | Err e => (d, Err e)
  end.

(** the result of an operation of message.py:29, 627-775 as an outcome *)
Definition xres {A} (f : A -> xout) (r : dict value * res A) : dict value * xout :=
  match r with (d, Ok a) => (d, f a) | (d, Err e) => (d, PExn e) end.

(** one operation; message.py:29, 627-775 *)
Definition xstep (C : clsdef) (d : dict value) (o : xop) : dict value * xout :=
  match o with
  | XSet k v => xres (fun _ => PNone) (setitem C d k v)
  | XDel k => xres (fun _ => PNone) (delitem d k)
  | XUpdate e => xres (fun _ => PNone) (update d (VDict e))
  | XItem k => xres PVal (d, getitem d k)
  | XPop k dv => xres PVal (m_pop d k dv)
  | XPopitem => xres (fun kv => PPair (fst kv) (snd kv)) (m_popitem d)
  | XSetdefault k v => xres PVal (m_setdefault C d k v)
  | XClear => xres (fun _ => PNone) (m_clear d)
  | XIn k => (d, PBool (dhas d k))
  | XLen => (d, PNat (List.length d))
  | XKeys => (d, PKeys (dkeys d))
  | XValues => (d, PVals (map snd d))
  | XItems => (d, PPairs d)
  end.
(** a history of operations, message.py:29, 627-775 *)
Fixpoint xruns (C : clsdef) (d : dict value) (os : list xop) : dict value * list xout :=
  match os with
  | [] => (d, [])
  | o :: r => let (d1, x) := xstep C d o in let (d2, xs) := xruns C d1 r in (d2, x :: xs)
  end.
