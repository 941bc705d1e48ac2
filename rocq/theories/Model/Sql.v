(** src/oidcmsg/storage/absqlalchemy.py: one session on one table. *)
From Coq Require Import List NArith ZArith Bool String.
From Verif Require Import Base.Ustr Model.Value.
Import ListNotations.
Open Scope list_scope.
Open Scope Z_scope.

(** A row of the table of db_setup.py:9-23.  Simplifications: data and owner are texts (both are
    NOT NULL columns), created is NULL (the reflected table has no default), lengths are not checked. *)
Record row := mkRow { r_id : Z; r_owner : ustr; r_data : ustr }.
(** the rows on disc and the rows the session sees, the number of the next row; storage/absqlalchemy.py:10-18 *)
Record sql := mkSql { q_disc : list row; q_rows : list row; q_next : Z }.
(** an empty table, storage/absqlalchemy.py:10-18 *)
Definition sql_empty : sql := mkSql [] [] 1.

(** where(owner == k), storage/absqlalchemy.py:20-53 *)
Definition owned (k : ustr) (r : row) : bool := ueqb (r_owner r) k.
(** session.commit(), storage/absqlalchemy.py:26-44 *)
Definition commit (q : sql) : sql := mkSql (q_rows q) (q_rows q) (q_next q).
(** get, absqlalchemy.py:20-24 *)
Definition sql_get (q : sql) (k : ustr) : value :=
  match find (owned k) (q_rows q) with Some r => VStr (r_data r) | None => VNone end.
(** delete, 46-53: no commit *)
Definition sql_delete (q : sql) (k : ustr) : sql * Z :=
  (mkSql (q_disc q) (filter (fun r => negb (owned k r)) (q_rows q)) (q_next q),
   Z.of_nat (List.length (filter (owned k) (q_rows q)))).
(** set and __setitem__, 26-32 and 88-89 *)
Definition sql_set (q : sql) (k v : ustr) : sql :=
  let q1 := fst (sql_delete q k) in
  commit (mkSql (q_disc q1) (q_rows q1 ++ [mkRow (q_next q1) k v]) (q_next q1 + 1)).
(** update, 34-44 *)
Definition sql_update (q : sql) (k v : ustr) : sql :=
  commit (mkSql (q_disc q)
    (map (fun r => if owned k r then mkRow (r_id r) (r_owner r) v else r) (q_rows q)) (q_next q)).
(** the columns of a row; storage/absqlalchemy.py:55-61 and db_setup.py *)
Definition columns (r : row) : list value := [VInt (r_id r); VStr (r_owner r); VStr (r_data r); VNone].
(** __contains__, 55-58, through the operator [in]: None becomes False *)
Definition sql_contains (q : sql) (k : value) : bool :=
  existsb (fun r => existsb (fun c => py_eq k c) (columns r)) (q_rows q).
(** the process dies: what was not committed is lost; storage/absqlalchemy.py:46-53 *)
Definition sql_crash (q : sql) : sql := mkSql (q_disc q) (q_disc q) (q_next q).

(** flush, 78-86; the commit succeeds *)
Definition sql_flush (q : sql) : sql := commit q.

(** the operations of storage/absqlalchemy.py:26-53, 78-86 *)
Inductive qop := QSet (k v : ustr) | QUpdate (k v : ustr) | QDelete (k : ustr) | QFlush.
(** the operations that change something, with the number they return (0 where None is returned) *)
Definition qexec (q : sql) (o : qop) : sql * Z :=
  match o with
  | QSet k v => (sql_set q k v, 1)
  | QUpdate k v => (sql_update q k v, 1)
  | QDelete k => sql_delete q k
  | QFlush => (sql_flush q, 0)
  end.
(** a history of operations, storage/absqlalchemy.py:26-53, 78-86 *)
Definition qrun (q : sql) (l : list qop) : sql := fold_left (fun q o => fst (qexec q o)) l q.
