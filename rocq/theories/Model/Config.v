(** Configuration helpers: storage/init.py, storage/utils.py, oidcmsg/__init__.py and context.py. *)
From Coq Require Import List NArith ZArith Bool String.
From Verif Require Import Base.Ustr Base.Percent Model.Cls Model.Value Model.FileStore.
Import ListNotations.
Open Scope list_scope.
Open Scope N_scope.

(** get_storage_conf, storage/init.py:28-39; [db_conf] is None or a dictionary *)
Definition get_storage_conf (db_conf : value) (typ : ustr) : res value :=
  if truthy db_conf then
    match db_conf with
    | VDict d =>
        let get k := match dget d k with Some v => v | None => VNone end in
        if truthy (get typ) then Ok (get typ)
        else if negb (ueqb typ (u "default")) then Ok (get (u "default"))
        else Err EConfigurationError
    | _ => Err EAttributeError
    end
  else Ok VNone.

(** What init_storage gives: a storage of the named handler class with the rest of its
    configuration (storage_factory, storage/init.py:42-49; importing and constructing it is not
    modelled) or a LabeledDict, init.py:52-65. *)
Inductive storage_choice := Handler (name : value) (conf : dict value) | InMemory (key : ustr).
(** storage_factory, storage/init.py:42-49 *)
Definition storage_factory (conf : value) : res storage_choice :=
  match conf with
  | VDict d =>
      let h := match dget d (u "handler") with Some v => v | None => VNone end in
      if truthy h then Ok (Handler h (ddel d (u "handler"))) else Err EConfigurationError
  | _ => Err EAttributeError
  end.
(** init_storage, storage/init.py:52-65 *)
Definition init_storage (db_conf : value) (key : ustr) : res storage_choice :=
  if truthy db_conf then
    do c <- get_storage_conf db_conf key ;
    if truthy c then storage_factory c else Ok (InMemory key)
  else Ok (InMemory key).

(** modsplit, storage/utils.py:4-16 *)
Definition modsplit (name : ustr) : res (ustr * ustr) :=
  if has_char 58 name then
    match split_on 58 name with
    | [m; c] => Ok (m, c)
    | _ => Err EValueError
    end
  else
    let parts := split_on 46 name in
    if Nat.ltb (List.length parts) 2 then Err EValueError
    else Ok (join (u ".") (removelast parts), last parts []).

(** [while path.startswith("."): path = path[1:]] *)
Fixpoint drop_dots (s : ustr) : ustr :=
  match s with
  | c :: r => if c =? 46 then drop_dots r else s
  | [] => []
  end.
(** proper_path, oidcmsg/__init__.py:11-31 *)
Definition proper_path (path : ustr) : ustr :=
  let path :=
    if startswith (u "./") path then path
    else if startswith (u "/") path then u "." ++ path
    else if startswith (u ".") path then
      let path := drop_dots path in
      if startswith (u "/") path then u "." ++ path else path
    else u "./" ++ path in
  if endswith (u "/") path then path else path ++ u "/".

(** add_base_path, oidcmsg/__init__.py:35-61.  The module does not import os, so that the branches
    that join paths (lines 52 and 59) raise NameError.  [items] is the value of a section in
    item_paths, [part] what the configuration has there; on success nothing has been changed, as all
    other branches leave the configuration as it is: an empty path is not truthy (lines 42, 46). *)
Definition abs_path (v : value) : res unit :=
  match v with
  | VStr p => if startswith (u "/") p then Ok tt else Err ENameError
  | _ => Err EAttributeError
  end.
(** part.get(k), __init__.py:35-61 *)
Definition lookup (part : value) (k : ustr) : res value :=
  match part with
  | VDict d | VMsg _ d => Ok (match dget d k with Some v => v | None => VNone end)
  | _ => Err EAttributeError
  end.
(** add_base_path, __init__.py:35-61 *)
Fixpoint add_base_path (items : value) (conf : value) : res unit :=
  match items with
  | VDict sections =>
      (fix go (sections : list (ustr * value)) : res unit :=
        match sections with
        | [] => Ok tt
        | (section, items) :: rest =>
            do part <- (if ueqb section [] then Ok conf else lookup conf section) ;
            do _ <- (if truthy part then
                       match items with
                       | VList attrs =>
                           (fix each (attrs : list value) : res unit :=
                             match attrs with
                             | [] => Ok tt
                             | VStr a :: attrs =>
                                 do p <- lookup part a ;
                                 do _ <- (if truthy p then abs_path p else Ok tt) ;
                                 each attrs
                             | _ => Err OutOfModel
                             end) attrs
                       | VNone => abs_path part
                       | _ => add_base_path items part
                       end
                     else Ok tt) ;
            go rest
        end) sections
  | _ => Err EAttributeError
  end.

(** add_issuer, context.py:13-22: every section but the named one gets the quoted issuer *)
Fixpoint add_issuer (conf : list (ustr * value)) (issuer : ustr) : res (dict value) :=
  match conf with
  | [] => Ok []
  | (k, v) :: conf =>
      if ueqb k (u "abstract_storage_cls") then do r <- add_issuer conf issuer ; Ok ((k, v) :: r)
      else match v with
           | VDict d =>
               match quote_plus issuer with
               | Some q => do r <- add_issuer conf issuer ; Ok ((k, VDict (dset d (u "issuer") (VStr q))) :: r)
               | None => Err EUnicodeEncodeError
               end
           | _ => Err ETypeError
           end
  end.
