(** Contexts of several issuers. *)
From Coq Require Import List NArith Arith Bool String.
From Verif Require Import Base.Ustr Model.Cls Model.Value Model.FileStore Model.Tenants Spec.CodecSpec Spec.StorageSpec.
Import ListNotations.
Open Scope list_scope.
Open Scope N_scope.

(** issuers with a directory name of their own *)
Definition issuer_name (iss : ustr) : Prop := encodable iss /\ iss <> [] /\ iss <> u "." /\ iss <> u "..".
(** a configuration of storages whose default section puts each issuer in a directory of its own below [base] *)
Record per_issuer (db : dict value) (base : ustr) : Prop := {
  pi_nodup : NoDup (map fst db);
  pi_sections : forall k v, In (k, v) db -> k = u "abstract_storage_cls" \/ exists d, v = VDict d;
  pi_default : exists s h, dget db (u "default") = Some (VDict s) /\ dget s (u "handler") = Some (VStr h) /\ h <> [] /\
    dget s (u "fdir") = Some (VStr (base ++ u "/{issuer}"));
  pi_base : base <> [] /\ ~ In 123 base /\ ~ In 125 base }.
(** the configuration of the context of an issuer *)
Definition config_of (db : dict value) (iss : ustr) : dict value := [(u "issuer", VStr iss); (u "db_conf", VDict db)].
(** the part of a history that process [i] made *)
Definition part (i : nat) (h : list (nat * op)) : list (nat * op) := filter (fun e => Nat.eqb (fst e) i) h.
