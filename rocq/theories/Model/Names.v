(** Classes by name and the deserializers for tokens: storage/utils.py:19-28, oidc/__init__.py:98-100, 1018-1025. *)
From Coq Require Import List NArith Bool String.
From Verif Require Import Base.Ustr Model.Cls Model.Value Model.Pspec Model.Tables Model.Json Model.Message Model.Config Model.Dispatch.
Import ListNotations.
Open Scope list_scope.

Section Import.
  (** [importlib.import_module] and [getattr] of a module, which are Python's; utils.py:19-23 *)
  Context {M A : Type} (import_module : ustr -> res M) (getattr : M -> ustr -> res A).
  (** importer, storage/utils.py:19-23 *)
  Definition importer (name : ustr) : res A :=
    do p <- modsplit name ;
    do m <- import_module (fst p) ;
    getattr m (snd p).
End Import.
(** qualified_name of the class with this __module__ and this __name__, storage/utils.py:26-28 *)
Definition qualified_name (module name : ustr) : ustr := module ++ u "." ++ name.

(** [c().deserialize(v, method)] and the instance that it fills, message.py:161-175 *)
Definition deserialized (c : cls) (v : value) (method : ustr) : res value :=
  match deserialize (cdef c) (cd_default (cdef c)) v method with
  | (d, Ok _) => Ok (VMsg c d)
  | (_, Err e) => Err e
  end.
(** jwt_deser, oidc/__init__.py:1018-1025 *)
Definition jwt_deser (v : value) (sformat : ustr) : res value :=
  let f := if ueqb sformat (u "urlencoded") then u "json" else sformat in
  if umem f [u "dict"; u "json"] then
    match v with
    | VStr _ => deserialized C_oidc_JsonWebToken v f
    | _ => do t <- json_dumps v ; deserialized C_oidc_JsonWebToken (VStr t) (u "json")
    end
  else deserialized C_oidc_JsonWebToken v f.
(** idtoken_deser, oidc/__init__.py:98-100 *)
Definition idtoken_deser (v : value) (sformat : ustr) : res value := deserialized C_oidc_IdToken v (u "jwt").
