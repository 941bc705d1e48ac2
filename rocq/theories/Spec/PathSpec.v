(** C83: which entries of a configuration add_base_path is to complete. *)
From Coq Require Import List NArith ZArith Bool String.
From Verif Require Import Base.Ustr Model.Value Spec.MessageSpec.
Import ListNotations.
Open Scope list_scope.
Open Scope N_scope.

Definition mapping (v : value) (d : dict value) : Prop := v = VDict d \/ exists c, v = VMsg c d.
Definition named_entry (conf : value) (k : ustr) (v : value) : Prop := exists d, mapping conf d /\ dget d k = Some v.
(** the part of [conf] that a section names; the empty name stands for all of it *)
Definition section_of (conf : value) (s : ustr) (p : value) : Prop :=
  ((s = [] /\ p = conf) \/ (s <> [] /\ named_entry conf s p)) /\ ~ empty_value p.

(** [v] is one of the non-empty entries of [conf] that the description [items] names *)
Inductive addressed : value -> value -> value -> Prop :=
| AdAttr l conf s attrs p a v : In (s, VList attrs) l -> section_of conf s p -> In (VStr a) attrs -> named_entry p a v -> ~ empty_value v ->
    addressed (VDict l) conf v
| AdPart l conf s p : In (s, VNone) l -> section_of conf s p -> addressed (VDict l) conf p
| AdSub l l' conf s p v : In (s, VDict l') l -> section_of conf s p -> addressed (VDict l') p v -> addressed (VDict l) conf v.
(** [v] is a place in [conf] where one of the names is looked up *)
Inductive looked_in : value -> value -> value -> Prop :=
| LiConf l conf s i : In (s, i) l -> s <> [] -> looked_in (VDict l) conf conf
| LiPart l conf s attrs p a : In (s, VList attrs) l -> section_of conf s p -> In a attrs -> looked_in (VDict l) conf p
| LiSub l l' conf s p v : In (s, VDict l') l -> section_of conf s p -> looked_in (VDict l') p v -> looked_in (VDict l) conf v.

(** descriptions: for each section a list of names, None or again a description *)
Inductive description : value -> Prop :=
| Description l : (forall s i, In (s, i) l -> i = VNone \/ (exists ns, i = VList (map VStr ns)) \/ description i) -> description (VDict l).

Definition absolute (v : value) : Prop := exists r, v = VStr (u "/" ++ r).
Definition relative (v : value) : Prop := exists p, v = VStr p /\ ~ exists r, p = u "/" ++ r.
