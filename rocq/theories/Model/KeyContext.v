(** The construction of a context, context.py:25-76, with its key jar and its boxes. *)
From Coq Require Import List NArith ZArith Bool String.
From Verif Require Import Base.Ustr Model.Cls Model.Value Model.Config Model.Tenants.
Import ListNotations.
Open Scope list_scope.
Open Scope N_scope.

(** cryptojwt's key jars, as far as context.py:49-76 uses them; they are not part of the repository *)
Record jars (J : Type) := {
  (** [init_key_jar( **args, storage=storage)] *)
  j_init : dict value -> option storage_choice -> res J;
  (** [KeyJar(storage=storage)] *)
  j_new : option storage_choice -> J;
  (** [keyjar.import_jwks(jwks, owner)] *)
  j_import : J -> value -> ustr -> res J;
  (** [owner in keyjar] *)
  j_has : J -> ustr -> bool;
  (** [keyjar.export_jwks_as_json(True, owner)] *)
  j_export : J -> ustr -> res ustr;
  (** [keyjar.import_jwks_as_json(text, owner)] *)
  j_import_json : J -> ustr -> ustr -> res J;
  (** [keyjar.httpc_params = v] *)
  j_httpc : J -> value -> J }.
Arguments j_init {J}. Arguments j_new {J}. Arguments j_import {J}. Arguments j_has {J}. Arguments j_export {J}.
Arguments j_import_json {J}. Arguments j_httpc {J}.

Section Jar.
  Context {J : Type} (X : jars J).
  (** the key jar before the keys get their owner's name, context.py:57-64; [args.update] replaces a "storage" *)
  Definition first_jar (config : dict value) (storage : option storage_choice) : res J :=
    match dget config (u "keys") with
    | Some (VDict keys) =>
        j_init X (filter (fun kv : ustr * value => negb (ueqb (fst kv) (u "uri_path")) && negb (ueqb (fst kv) (u "storage"))) keys) storage
    | Some _ => Err EAttributeError
    | None =>
        match dget config (u "jwks") with
        | Some jwks => j_import X (j_new X storage) jwks []
        | None => Ok (j_new X storage)
        end
    end.
  (** OidcContext._keyjar, context.py:49-76 *)
  Definition ctx_keyjar (given : option J) (config : dict value) (entity_id : ustr) : res J :=
    match given with
    | Some kj => Ok kj
    | None =>
        do storage <- ctx_key_storage config ;
        do kj <- first_jar config storage ;
        do kj <- (if j_has X kj [] && truthy (VStr entity_id) then do t <- j_export X kj [] ; j_import_json X kj t entity_id else Ok kj) ;
        let p := conf_get config (u "httpc_params") in
        Ok (if truthy p then j_httpc X kj p else kj)
    end.
  (** the attributes of a context, context.py:30-43 *)
  Inductive attr := AStorage (s : storage_choice) | AConf (v : value) | AJar (k : J).
  (** OidcContext.__init__, context.py:26-43: the attributes *)
  Definition ctx_init (given : option J) (config : dict value) (entity_id : ustr) : res (dict attr) :=
    do c <- ctx_db_conf config ;
    do s <- ctx_storage config ;
    do kj <- ctx_keyjar given config entity_id ;
    Ok [(u "db_conf", AConf c); (u "db", AStorage s); (u "keyjar", AJar kj)].
  (** OidcContext.add_boxes, context.py:45-47: the attributes afterwards and the outcome *)
  Fixpoint add_boxes (x : dict attr) (boxes : list (ustr * value)) (db_conf : value) : dict attr * res unit :=
    match boxes with
    | [] => (x, Ok tt)
    | (key, a) :: r =>
        match init_storage db_conf key with
        | Err e => (x, Err e)
        | Ok s => match a with
                  | VStr a => add_boxes (dset x a (AStorage s)) r db_conf
                  | _ => (x, Err ETypeError)
                  end
        end
    end.
End Jar.
Arguments AStorage {J}. Arguments AConf {J}. Arguments AJar {J}.
