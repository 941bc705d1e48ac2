(** JSON laid out over several lines: Message.to_json with its arguments and the text of the SQL storage. *)
From Coq Require Import List NArith ZArith Bool String.
From Verif Require Import Base.Ustr Model.Cls Model.Value Model.Pspec Model.Json Model.Message Model.Sql.
Import ListNotations.
Open Scope list_scope.
Open Scope N_scope.

(** a line break and the indentation of a level, json of the standard library, used in message.py:454 and
    storage/absqlalchemy.py:76 *)
Definition line (i lev : nat) : ustr := 10 :: repeat 32 (i * lev).

(** the text of a value at a level, json of the standard library with [indent], used in message.py:454 and
    storage/absqlalchemy.py:76: the separator of the elements is a comma, every element has its line, an empty list or
    dictionary none *)
Fixpoint jlaid (i lev : nat) (v : value) : ustr :=
  match v with
  | VList [] => [91; 93]
  | VList (x :: r) =>
      91 :: line i (S lev) ++ jlaid i (S lev) x ++
      (fix go (l : list value) : ustr :=
         match l with
         | [] => []
         | y :: r => 44 :: line i (S lev) ++ jlaid i (S lev) y ++ go r
         end) r ++ line i lev ++ [93]
  | VDict [] => [123; 125]
  | VDict ((k, x) :: r) =>
      123 :: line i (S lev) ++ jstring k ++ [58; 32] ++ jlaid i (S lev) x ++
      (fix go (d : list (ustr * value)) : ustr :=
         match d with
         | [] => []
         | (k, y) :: r => 44 :: line i (S lev) ++ jstring k ++ [58; 32] ++ jlaid i (S lev) y ++ go r
         end) r ++ line i lev ++ [125]
  | _ => jtext v
  end.

(** [json.dumps(v, indent=i)], used in message.py:454 and storage/absqlalchemy.py:76; a negative number is as good as 0.
    Simplification: [i] is None or a number, not a text. *)
Definition json_dumps_indent (i : option Z) (v : value) : res ustr :=
  match i with
  | None => json_dumps v
  | Some n => match jerr v with Some e => Err e | None => Ok (jlaid (Z.to_nat n) 0 v) end
  end.

(** Message.to_json(lev, indent), message.py:443-454: a dictionary below the top level *)
Definition to_json_at (C : clsdef) (d : dict value) (lev : nat) (i : option Z) : res value :=
  do r <- to_dict C d ;
  match lev with
  | O => do t <- json_dumps_indent i (VDict r) ; Ok (VStr t)
  | S _ => Ok (VDict r)
  end.

(** __str__ of the SQL storage, storage/absqlalchemy.py:66-76.  Simplification: no column holds a datetime (see
    Model/Sql.v). *)
Definition sql_str (q : sql) : res ustr :=
  json_dumps_indent (Some 2%Z) (VList (map (fun r => VList (columns r)) (q_rows q))).
