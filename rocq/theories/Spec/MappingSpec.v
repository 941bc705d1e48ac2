(** The insertion-ordered map that a message is, with the operations it inherits from
    collections.abc.MutableMapping.  No function of Model/ is used but [dget]'s type of values. *)
From Coq Require Import List NArith.
From Verif Require Import Base.Ustr Model.Value Spec.MessageSpec.
Import ListNotations.

Inductive xop :=
| XSet (k : ustr) (v : value)                 (* m[k] = v *)
| XDel (k : ustr)                             (* del m[k] *)
| XUpdate (e : dict value)                    (* m.update(e) *)
| XItem (k : ustr)                            (* m[k] *)
| XPop (k : ustr) (default : option value)    (* m.pop(k), m.pop(k, default) *)
| XPopitem                                    (* m.popitem() *)
| XSetdefault (k : ustr) (v : value)          (* m.setdefault(k, v) *)
| XClear                                      (* m.clear() *)
| XIn (k : ustr)                              (* k in m *)
| XLen                                        (* len(m) *)
| XKeys                                       (* list(m), list(m.keys()) *)
| XValues                                     (* list(m.values()) *)
| XItems.                                     (* list(m.items()) *)
Inductive xout :=
| PNone | PExn (e : exn) | PVal (v : value) | PPair (k : ustr) (v : value) | PBool (b : bool) | PNat (n : nat)
| PKeys (l : list ustr) | PVals (l : list value) | PPairs (l : list (ustr * value)).

(** the keys in the order of their insertion, and what they map to *)
Definition omap := (list ustr * amap)%type.
Definition same (s t : omap) : Prop := fst s = fst t /\ forall k, snd s k = snd t k.
(** a new key goes to the end, an old one keeps its place *)
Definition oput (s : omap) (k : ustr) (v : value) : omap :=
  (if in_dec ueq_dec k (fst s) then fst s else fst s ++ [k], aset (snd s) k (Some v)).
Definition odel (s : omap) (k : ustr) : omap := (remove ueq_dec k (fst s), aset (snd s) k None).
Definition oputs (s : omap) (e : dict value) : omap := fold_left (fun s kv => oput s (fst kv) (snd kv)) e s.

Inductive ostep (s : omap) : xop -> omap -> xout -> Prop :=
| SSet : forall k v t, same t (oput s k v) -> ostep s (XSet k v) t PNone
| SDel : forall k t, In k (fst s) -> same t (odel s k) -> ostep s (XDel k) t PNone
| SDelMiss : forall k t, ~ In k (fst s) -> same t s -> ostep s (XDel k) t (PExn EKeyError)
| SUpdate : forall e t, same t (oputs s e) -> ostep s (XUpdate e) t PNone
| SItem : forall k v t, snd s k = Some v -> same t s -> ostep s (XItem k) t (PVal v)
| SItemMiss : forall k t, ~ In k (fst s) -> same t s -> ostep s (XItem k) t (PExn EKeyError)
| SPop : forall k dv v t, snd s k = Some v -> same t (odel s k) -> ostep s (XPop k dv) t (PVal v)
| SPopDefault : forall k v t, ~ In k (fst s) -> same t s -> ostep s (XPop k (Some v)) t (PVal v)
| SPopMiss : forall k t, ~ In k (fst s) -> same t s -> ostep s (XPop k None) t (PExn EKeyError)
(* the oldest entry, other than dict.popitem *)
| SPopitem : forall k r v t, fst s = k :: r -> snd s k = Some v -> same t (odel s k) -> ostep s XPopitem t (PPair k v)
| SPopitemMiss : forall t, fst s = [] -> same t s -> ostep s XPopitem t (PExn EKeyError)
| SSetdefault : forall k v w t, snd s k = Some w -> same t s -> ostep s (XSetdefault k v) t (PVal w)
| SSetdefaultNew : forall k v t, ~ In k (fst s) -> same t (oput s k v) -> ostep s (XSetdefault k v) t (PVal v)
| SClear : forall t, same t ([], fun _ => None) -> ostep s XClear t PNone
| SIn : forall k t b, (b = true <-> In k (fst s)) -> same t s -> ostep s (XIn k) t (PBool b)
| SLen : forall t, same t s -> ostep s XLen t (PNat (List.length (fst s)))
| SKeys : forall t, same t s -> ostep s XKeys t (PKeys (fst s))
| SValues : forall t l, Forall2 (fun k v => snd s k = Some v) (fst s) l -> same t s -> ostep s XValues t (PVals l)
| SItems : forall t l, Forall2 (fun k kv => fst kv = k /\ snd s k = Some (snd kv)) (fst s) l -> same t s ->
    ostep s XItems t (PPairs l).

Inductive oruns : omap -> list xop -> omap -> list xout -> Prop :=
| ONil : forall s, oruns s [] s []
| OCons : forall s o s1 r os s2 rs, ostep s o s1 r -> oruns s1 os s2 rs -> oruns s (o :: os) s2 (r :: rs).
