(** Processes that share an SQL table. *)
From Coq Require Import List NArith ZArith Bool String.
From Verif Require Import Base.Ustr Model.Value Model.Sql Model.Sessions.
Import ListNotations.
Open Scope list_scope.

(** the statements of session [i] among those of all *)
Definition of_session (i : nat) (l : list (nat * stmt)) : list stmt := map snd (filter (fun x => Nat.eqb (fst x) i) l).
(** session [i] has done the operations [ops], one after the other, and nothing else *)
Definition has_done (i : nat) (ops : list qop) (l : list (nat * stmt)) : Prop := of_session i l = flat_map stmts ops.
(** statements about the key [k] *)
Definition about (k : ustr) (s : stmt) : Prop :=
  match s with SDelete k' => k' = k | SInsert k' _ => k' = k | SUpdate k' _ => k' = k | SCommit => False | SRollback => False end.
(** no session but [i] touches the key [k] *)
Definition only (i : nat) (k : ustr) (l : list (nat * stmt)) : Prop := forall j s, In (j, s) l -> about k s -> j = i.
(** what a map holds under [k] after the operations *)
Fixpoint held (k : ustr) (ops : list qop) (now : option ustr) : option ustr :=
  match ops with
  | [] => now
  | QSet k' v :: r => held k r (if ueqb k' k then Some v else now)
  | QUpdate k' v :: r => held k r (if ueqb k' k then match now with Some _ => Some v | None => None end else now)
  | QDelete k' :: r => held k r (if ueqb k' k then None else now)
  | QFlush :: r => held k r now
  end.
(** what a query for the key [k] finds in session [i] *)
Definition found (b : shared) (i : nat) (k : ustr) : list ustr := map r_data (filter (owned k) (visible b i)).
(** the value [v] was written under the key [k] *)
Definition was_written (k v : ustr) (l : list (nat * stmt)) : Prop := exists i, In (i, SInsert k v) l \/ In (i, SUpdate k v) l.
(** no transaction is open but in session [i] *)
Definition quiet_but (b : shared) (i : nat) : Prop := forall j, j <> i -> b_open b j = [].
