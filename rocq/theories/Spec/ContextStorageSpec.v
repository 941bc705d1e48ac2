(** Where a context keeps its data and its keys. *)
From Coq Require Import List NArith Bool String.
From Verif Require Import Base.Ustr Model.Cls Model.Value.
Import ListNotations.
Open Scope list_scope.
Open Scope N_scope.

(** a configuration of storages: sections and the name of a class *)
Record sections (db : dict value) : Prop := {
  se_nodup : NoDup (map fst db);
  se_dicts : forall k v, In (k, v) db -> k = u "abstract_storage_cls" \/ exists d, v = VDict d }.
(** the section [name] names the storage class [h] *)
Definition section_for (db : dict value) (name : ustr) (s : dict value) (h : ustr) : Prop :=
  dget db name = Some (VDict s) /\ dget s (u "handler") = Some (VStr h) /\ h <> [].
(** what the storage class is given: the section without the class, with the quoted issuer *)
Definition given_to (s : dict value) (q : ustr) (c : dict value) : Prop :=
  forall k, dget c k = if ueqb k (u "handler") then None else if ueqb k (u "issuer") then Some (VStr q) else dget s k.
(** the configuration of a context without an issuer *)
Definition config_plain (db : dict value) : dict value := [(u "db_conf", VDict db)].
