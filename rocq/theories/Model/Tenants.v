(** What storage a context takes from its configuration, context.py:25-60 and storage/abfile.py:45-53, and several
    processes with a configuration each. *)
From Coq Require Import List NArith ZArith Bool String.
From Verif Require Import Base.Ustr Model.Cls Model.Value Model.FileStore Model.Config.
Import ListNotations.
Open Scope list_scope.
Open Scope N_scope.

(** [config.get(k)]; context.py:26-43 *)
Definition conf_get (d : dict value) (k : ustr) : value := match dget d k with Some v => v | None => VNone end.

(** self.db_conf, context.py:30-34; an issuer that is no text is a TypeError of quote_plus *)
Definition ctx_db_conf (config : dict value) : res value :=
  let db_conf := conf_get config (u "db_conf") in
  if truthy db_conf && truthy (conf_get config (u "issuer")) then
    match db_conf, conf_get config (u "issuer") with
    | VDict d, VStr iss => do r <- add_issuer d iss ; Ok (VDict r)
    | VDict _, _ => Err ETypeError
    | _, _ => Err EAttributeError
    end
  else Ok db_conf.
(** self.db, context.py:36-41 *)
Definition ctx_storage (config : dict value) : res storage_choice :=
  do db_conf <- ctx_db_conf config ;
  if truthy db_conf then
    match db_conf with
    | VDict d => if truthy (conf_get d (u "default")) then init_storage db_conf (u "default") else init_storage VNone (u "default")
    | _ => Err EAttributeError
    end
  else init_storage VNone (u "default").
(** the storage of the key jar that _keyjar makes, context.py:51-55 (no key jar given); None: none *)
Definition ctx_key_storage (config : dict value) : res (option storage_choice) :=
  do db_conf <- ctx_db_conf config ;
  if truthy db_conf then
    do c <- get_storage_conf db_conf (u "keyjar") ;
    if truthy c then do s <- storage_factory c ; Ok (Some s) else Ok None
  else Ok None.

(** [t.format(issuer=issuer)].  Simplification: of the replacement fields only "issuer" is modelled. context.py:13-22 *)
Fixpoint format_issuer (t issuer : ustr) : res ustr :=
  match t with
  | [] => Ok []
  | 123 :: 123 :: r => do x <- format_issuer r issuer ; Ok (123 :: x)
  | 125 :: 125 :: r => do x <- format_issuer r issuer ; Ok (125 :: x)
  | 123 :: 105 :: 115 :: 115 :: 117 :: 101 :: 114 :: 125 :: r => do x <- format_issuer r issuer ; Ok (issuer ++ x)
  | 123 :: _ => Err OutOfModel
  | 125 :: _ => Err EValueError
  | c :: r => do x <- format_issuer r issuer ; Ok (c :: x)
  end.
(** self.fdir, storage/abfile.py:46-53 *)
Definition fs_dir (conf : dict value) : res ustr :=
  match (match dget conf (u "fdir") with Some v => v | None => VStr [] end) with
  | VStr t =>
      if substr (u "{issuer}") t then
        match conf_get conf (u "issuer") with
        | VStr iss => if truthy (VStr iss) then format_issuer t iss else Err EValueError
        | v => if truthy v then Err OutOfModel else Err EValueError
        end
      else Ok t
  | _ => Err ETypeError
  end.
(** The file storage of a context.  Simplification: the handler is AbstractFileSystem, with the converters [ser] and
    [deser] for values. context.py:26-43, storage/abfile.py:26-74 *)
Definition ctx_files (ser : value -> res ustr) (deser : ustr -> res value) (config : dict value) : res conf :=
  do s <- ctx_storage config ;
  match s with
  | Handler _ c => do f <- fs_dir c ; Ok (mkC f ser deser)
  | InMemory _ => Err OutOfModel
  end.

(** processes with a configuration each; context.py:78-88 *)
Fixpoint trun (C : nat -> conf) (W : world) (P : procs) (l : list (nat * op)) : world * procs * list outcome :=
  match l with
  | [] => (W, P, [])
  | (i, o) :: l =>
      let '(W1, S1, r) := exec (C i) W (P i) o in
      let '(W2, P2, rs) := trun C W1 (pset P i S1) l in
      (W2, P2, r :: rs)
  end.
