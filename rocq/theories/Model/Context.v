(** OidcContext.set and OidcContext.get, context.py:78-88, on the kinds of storage that a context may have. *)
From Coq Require Import List NArith ZArith Bool String.
From Verif Require Import Base.Ustr Base.Utf8 Model.Cls Model.Value Model.Pspec Model.Tables Model.Message Model.FileStore Model.Labeled Model.Sql.
Import ListNotations.
Open Scope list_scope.
Open Scope N_scope.

(** self.db, context.py:30-41: what init_storage gives (storage/init.py:52-66): a LabeledDict with its
    rendered label, an AbstractFileSystem, or an AbstractStorageSQLAlchemy *)
Inductive db :=
| DbMem (L : ustr) (d : dict value)
| DbFile (C : conf) (W : world) (P : st)
| DbSql (q : sql).
(** the label of the LabeledDict that init_storage makes: it is given the dictionary {'label': key}, whose text
    (storage/init.py:66, extension.py:31) becomes the label; for a key without quotes and backslashes *)
Definition mem_label (key : ustr) : ustr := render (u "{'label': '" ++ key ++ u "'}").

(** [self.db[item] = value].  Simplification: in a table only texts are stored (the column is a String,
    db_setup.py:17). *)
Definition db_set (b : db) (item : ustr) (v : value) : db * res unit :=
  match b with
  | DbMem L d =>
      match ld_exec L d (DSet item v) with
      | (d', RUnit r) => (DbMem L d', r)
      | (d', _) => (DbMem L d', Err OutOfModel)
      end
  | DbFile C W P =>
      match exec C W P (OSet item v) with
      | (W', P', RUnit r) => (DbFile C W' P', r)
      | (W', P', _) => (DbFile C W' P', Err OutOfModel)
      end
  | DbSql q => match v with VStr t => (DbSql (sql_set q item t), Ok tt) | _ => (b, Err OutOfModel) end
  end.
(** [self.db[item]]: class AbstractStorageSQLAlchemy has no method __getitem__ (absqlalchemy.py:9-89) *)
Definition db_item (b : db) (item : ustr) : db * res value :=
  match b with
  | DbMem L d =>
      match ld_exec L d (DItem item) with
      | (d', RVal r) => (DbMem L d', r)
      | (d', _) => (DbMem L d', Err OutOfModel)
      end
  | DbFile C W P =>
      match exec C W P (OGet item) with
      | (W', P', RVal r) => (DbFile C W' P', r)
      | (W', P', _) => (DbFile C W' P', Err OutOfModel)
      end
  | DbSql q => (b, Err ETypeError)
  end.

(** set, context.py:78-82 *)
Definition ctx_set (b : db) (item : ustr) (v : value) : db * res unit :=
  match v with
  | VMsg c m => match to_dict (cdef c) m with Ok r => db_set b item (VDict r) | Err e => (b, Err e) end
  | _ => db_set b item v
  end.

(** what get returns: a value, or bytes; context.py:84-88 *)
Inductive got := GVal (v : value) | GBytes (b : list N).
(** get, context.py:84-88; [bytes(x, 'utf-8')] of anything but a text is a TypeError *)
Definition ctx_get (b : db) (item : ustr) : db * res got :=
  match db_item b item with
  | (b', Err e) => (b', Err e)
  | (b', Ok v) =>
      (b', if ueqb item (u "seed") then
             match v with
             | VStr s => match utf8_encode s with Some x => Ok (GBytes x) | None => Err EUnicodeEncodeError end
             | _ => Err ETypeError
             end
           else Ok (GVal v))
  end.

(** a history; context.py:78-88 *)
Inductive cop := CSet (item : ustr) (v : value) | CGet (item : ustr).
(** what set and get return, context.py:78-88 *)
Inductive cout := AUnit (r : res unit) | AGot (r : res got).
(** a history of operations, context.py:78-88 *)
Fixpoint ctx_run (b : db) (l : list cop) : db * list cout :=
  match l with
  | [] => (b, [])
  | CSet k v :: l => let (b1, r) := ctx_set b k v in let (b2, rs) := ctx_run b1 l in (b2, AUnit r :: rs)
  | CGet k :: l => let (b1, r) := ctx_get b k in let (b2, rs) := ctx_run b1 l in (b2, AGot r :: rs)
  end.
