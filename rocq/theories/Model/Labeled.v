(** Labelled views: src/oidcmsg/storage/extension.py and LabeledAbstractFileSystem of abfile.py. *)
From Coq Require Import List NArith ZArith Bool String.
From Verif Require Import Base.Ustr Model.Value Model.FileStore.
Import ListNotations.
Open Scope list_scope.
Open Scope N_scope.

(** the label as it is put before the keys, abfile.py:300-303 and extension.py:27-32 *)
Definition render (label : ustr) : ustr :=
  match label with [] => [] | _ => u "__" ++ label ++ u "__" end.
(** key_label, extension.py:1-6, for a key that is a text *)
Definition labelled (L k : ustr) : ustr := L ++ k.
(** k[len(label):] for the keys that start with the label; storage/abfile.py:329-340, storage/extension.py:62-68 *)
Definition strip_label (L : ustr) (l : list ustr) : list ustr :=
  map (skipn (List.length L)) (filter (startswith L) l).

(** ** LabeledAbstractFileSystem, abfile.py:292-357.  [L] is the rendered label; every view has its
    own AbstractFileSystem (line 297), whose state is [S]. *)
Section View.
  Variables (C : conf) (L : ustr).
  (** __getitem__, 313-315 *)
  Definition v_getitem (W : world) (S : st) (k : ustr) := get C W S (labelled L k) VNone.
  (** get, 305-307 *)
  Definition v_get (W : world) (S : st) (k : ustr) (default : value) := get C W S (labelled L k) default.
  (** __setitem__, 317-319 *)
  Definition v_set (W : world) (S : st) (k : ustr) (v : value) := set C W S (labelled L k) v.
  (** __delitem__, 321-323 *)
  Definition v_del (W : world) (S : st) (k : ustr) := del C W S (labelled L k).
  (** __contains__, 325-327 *)
  Definition v_contains (S : st) (k : ustr) := contains S (labelled L k).
  (** keys, 334-335 *)
  Definition v_keys (W : world) (S : st) : world * st * res (list ustr) :=
    match keys C W S with
    | (W', S', Ok l) => (W', S', Ok (strip_label L l))
    | r => r
    end.
  (** items and __iter__, 329-332 and 337-340 *)
  Definition v_items (W : world) (S : st) : world * st * res (list (ustr * value)) :=
    match items C W S with
    | (W', S', Ok l) =>
        (W', S', Ok (map (fun kv => (skipn (List.length L) (fst kv), snd kv))
                         (filter (fun kv => startswith L (fst kv)) l)))
    | r => r
    end.
  (** __len__, 342-357 *)
  Definition v_len (W : world) : res nat :=
    do l <- listdir W (c_fdir C) ;
    Ok (List.length (filter (fun f => startswith L f && isfile W (path_join (c_fdir C) f) &&
                                      negb (endswith (u ".lock") (path_join (c_fdir C) f))) l)).
  (** update, 309-311: the label and the dictionary are put together to a text, which has no items() *)
  Definition v_update (W : world) (S : st) (ava : value) : world * st * res unit := (W, S, Err EAttributeError).
End View.

(** the methods of storage/abfile.py:306-357 *)
Inductive vop :=
| VSet (k : ustr) (v : value) | VGet (k : ustr) | VDel (k : ustr) | VHas (k : ustr) | VKeys | VItems | VLen
| VUpdate (ava : value).
(** one operation, storage/abfile.py:306-357 *)
Definition vexec (C : conf) (L : ustr) (W : world) (S : st) (o : vop) : world * st * outcome :=
  let W := tick W in
  match o with
  | VSet k v => let '(W', S', r) := v_set C L W S k v in (W', S', RUnit r)
  | VGet k => let '(W', S', r) := v_getitem C L W S k in (W', S', RVal r)
  | VDel k => let '(W', S', r) := v_del C L W S k in (W', S', RUnit r)
  | VHas k => (W, S, RBool (v_contains L S k))
  | VKeys => let '(W', S', r) := v_keys C L W S in (W', S', RKeys r)
  | VItems => let '(W', S', r) := v_items C L W S in (W', S', RItems r)
  | VLen => (W, S, RLen (v_len C L W))
  | VUpdate ava => let '(W', S', r) := v_update W S ava in (W', S', RUnit r)
  end.
(** several views, view [i] with the rendered label [lab i]; storage/abfile.py:306-357 *)
Fixpoint vrun (C : conf) (lab : nat -> ustr) (W : world) (P : procs) (l : list (nat * vop)) : world * procs * list outcome :=
  match l with
  | [] => (W, P, [])
  | (i, o) :: l =>
      let '(W1, S1, r) := vexec C (lab i) W (P i) o in
      let '(W2, P2, rs) := vrun C lab W1 (pset P i S1) l in
      (W2, P2, r :: rs)
  end.

(** ** LabeledDict, extension.py:23-68.  The state is the dict self.storage. *)
Inductive dop :=
| DSet (k : ustr) (v : value) | DGet (k : ustr) (default : value) | DItem (k : ustr) | DDel (k : ustr) | DHas (k : ustr)
| DKeys | DUpdate (ava : dict value) | DIter.
(** dict.update(text): a pair is wanted of every character; the text of a dictionary is not empty;
    storage/extension.py:39-40 *)
Definition ld_update (L : ustr) (ava : dict value) : res unit := Err EValueError.
(** [for key, val in self.storage.__iter__()]: the keys are unpacked, up to the first key that does
    not have two characters; the pairs that come before the error are given out and not modelled;
    storage/extension.py:62-65 *)
Fixpoint ld_iter (L : ustr) (d : dict value) : res (list (ustr * value)) :=
  match d with
  | [] => Ok []
  | ([a; b], _) :: d =>
      do r <- ld_iter L d ;
      Ok (if startswith L [a] then (skipn (List.length L) [a], VStr [b]) :: r else r)
  | _ => Err EValueError
  end.
(** one operation, storage/extension.py:35-68 *)
Definition ld_exec (L : ustr) (d : dict value) (o : dop) : dict value * outcome :=
  match o with
  | DSet k v => (dset d (labelled L k) v, RUnit (Ok tt))
  | DGet k default => (d, RVal (Ok (match dget d (labelled L k) with Some v => v | None => default end)))
  | DItem k => (d, RVal (Ok (match dget d (labelled L k) with Some v => v | None => VNone end)))
  | DDel k => if dhas d (labelled L k) then (ddel d (labelled L k), RUnit (Ok tt)) else (d, RUnit (Err EKeyError))
  | DHas k => (d, RBool (Ok (dhas d (labelled L k))))
  | DKeys => (d, RKeys (Ok (strip_label L (dkeys d))))
  | DUpdate ava => (d, RUnit (ld_update L ava))
  | DIter => (d, RItems (ld_iter L d))
  end.
(** a history of operations, storage/extension.py:35-68 *)
Fixpoint ld_run (L : ustr) (d : dict value) (l : list dop) : dict value * list outcome :=
  match l with
  | [] => (d, [])
  | o :: l => let (d1, r) := ld_exec L d o in let (d2, rs) := ld_run L d1 l in (d2, r :: rs)
  end.
