(** src/oidcmsg/storage/absqlalchemy.py: several processes, each with its session on the one table. *)
From Coq Require Import List NArith ZArith Bool String.
From Verif Require Import Base.Ustr Model.Value Model.Sql.
Import ListNotations.
Open Scope list_scope.
Open Scope Z_scope.

(** What an open transaction has done to the rows, storage/absqlalchemy.py:26-53: rows are known by their number, the primary key. *)
Inductive change := CDel (id : Z) | CPut (id : Z) (data : ustr) | CIns (r : row).
(** one of them done to the rows, storage/absqlalchemy.py:26-53 *)
Definition apply1 (rows : list row) (c : change) : list row :=
  match c with
  | CDel id => filter (fun r => negb (r_id r =? id)) rows
  | CPut id v => map (fun r => if r_id r =? id then mkRow (r_id r) (r_owner r) v else r) rows
  | CIns r => rows ++ [r]
  end.
(** all of them in their order, storage/absqlalchemy.py:26-53 *)
Definition apply_all (rows : list row) (l : list change) : list row := fold_left apply1 l rows.

(** The committed rows, the next number of the sequence (db_setup.py:12-14; shared and never taken back) and the open
    transaction of each session (absqlalchemy.py:17-18).
    Simplifications: the isolation level is READ COMMITTED; a statement that would wait for the lock of another
    transaction takes effect at once, on the rows it was waiting for, so that there are more interleavings here than there are. *)
Record shared := mkShared { b_rows : list row; b_next : Z; b_open : nat -> list change }.
(** the table when it has been created, db_setup.py:26-29 *)
Definition shared_empty : shared := mkShared [] 1 (fun _ => []).
(** the rows that a query of session [i] sees, absqlalchemy.py:20-24, 60-61: what is committed and its own changes *)
Definition visible (b : shared) (i : nat) : list row := apply_all (b_rows b) (b_open b i).
(** get in session [i], absqlalchemy.py:20-24 *)
Definition shared_get (b : shared) (i : nat) (k : ustr) : value :=
  match find (owned k) (visible b i) with Some r => VStr (r_data r) | None => VNone end.
(** the transaction of session [i] goes on, absqlalchemy.py:26-53 *)
Definition more (b : shared) (i : nat) (l : list change) : nat -> list change :=
  fun j => if Nat.eqb j i then b_open b i ++ l else b_open b j.

(** the statements that reach the database, absqlalchemy.py:26-53, 78-86; a rollback (85) is also what the database does when a process dies *)
Inductive stmt := SDelete (k : ustr) | SInsert (k v : ustr) | SUpdate (k v : ustr) | SCommit | SRollback.
(** one statement in session [i], absqlalchemy.py:26-53, 78-86 *)
Definition sstep (b : shared) (i : nat) (s : stmt) : shared :=
  match s with
  | SDelete k => mkShared (b_rows b) (b_next b) (more b i (map (fun r => CDel (r_id r)) (filter (owned k) (visible b i))))
  | SInsert k v => mkShared (b_rows b) (b_next b + 1) (more b i [CIns (mkRow (b_next b) k v)])
  | SUpdate k v => mkShared (b_rows b) (b_next b) (more b i (map (fun r => CPut (r_id r) v) (filter (owned k) (visible b i))))
  | SCommit => mkShared (visible b i) (b_next b) (fun j => if Nat.eqb j i then [] else b_open b j)
  | SRollback => mkShared (b_rows b) (b_next b) (fun j => if Nat.eqb j i then [] else b_open b j)
  end.
(** the statements of an operation: set and __setitem__ 26-32, 88-89; update 34-44; delete 46-53 (counting changes nothing);
    flush 78-86 when the commit succeeds *)
Definition stmts (o : qop) : list stmt :=
  match o with
  | QSet k v => [SDelete k; SInsert k v; SCommit]
  | QUpdate k v => [SUpdate k v; SCommit]
  | QDelete k => [SDelete k]
  | QFlush => [SCommit]
  end.
(** statements of all sessions in the order in which they reach the database, absqlalchemy.py:26-53, 78-86 *)
Definition srun (b : shared) (l : list (nat * stmt)) : shared := fold_left (fun b x => sstep b (fst x) (snd x)) l b.
