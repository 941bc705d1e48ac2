(** What the identity assurance properties are stated with. *)
From Coq Require Import List NArith ZArith QArith Bool String.
From Verif Require Import Base.Ustr Model.Cls Model.Value Model.Pspec Model.Tables Model.IdentityAssurance Spec.VerifySpec.
Import ListNotations.
Open Scope list_scope.
Open Scope N_scope.

(** ** Claims requests *)
Definition simple (t : vtyp) : Prop := t = TStr \/ t = TInt \/ t = TBool.
(** isinstance; True and False are integers *)
Definition of_type (t : vtyp) (v : value) : Prop :=
  match t with
  | TStr => exists s, v = VStr s
  | TInt => (exists z, v = VInt z) \/ exists b, v = VBool b
  | TBool => exists b, v = VBool b
  | _ => False
  end.
(** equal to None, True or False (so 0, 1, 0.0 and 1.0 as well) *)
Definition boolish (v : value) : Prop :=
  v = VNone \/ (exists b, v = VBool b) \/ v = VInt 0 \/ v = VInt 1 \/ exists q, v = VFlt q /\ (q == 0 \/ q == 1)%Q.
(** what a for loop goes through *)
Definition elements (v : value) (l : list value) : Prop :=
  match v with
  | VStr s => l = map (fun c => VStr [c]) s
  | VList m => l = m
  | VDict d | VMsg _ d => l = map (fun kv => VStr (fst kv)) d
  | _ => False
  end.
(** a request for a claim of a simple type: None, a value that is no dictionary, or a dictionary
    whose members essential, value, values and purpose, if there, are proper ones *)
Record dict_ok (t : vtyp) (d : dict value) : Prop := {
  q_essential : forall x, dget d (u "essential") = Some x -> boolish x;
  q_value : forall x, dget d (u "value") = Some x -> truthy x = true -> of_type t x;
  q_values : forall x, dget d (u "values") = Some x -> exists l, elements x l /\ forall y, In y l -> of_type t y;
  q_purpose : forall x, dget d (u "purpose") = Some x -> truthy x = true ->
                desc_ok x /\ exists n, sized x n /\ (3 <= n <= 300)%nat }.
Definition value_ok (t : vtyp) (v : value) : Prop := forall d, v = VDict d -> dict_ok t d.

Definition mapping (v : value) (d : dict value) : Prop := v = VDict d \/ exists c, v = VMsg c d.
(** a request for the claims of a class, its members and the elements of their lists *)
Inductive request_ok : cls -> value -> Prop :=
| RqMap : forall c v d, mapping v d ->
    (forall k s x, In (k, s) (cd_param (cdef c)) -> dget d k = Some x -> member_ok (p_typ s) x) -> request_ok c v
| RqAny : forall c v, cd_param (cdef c) = [] -> request_ok c v
with member_ok : vtyp -> value -> Prop :=
| MSimple : forall t v, simple t -> value_ok t v -> member_ok t v
| MDict : forall v, member_ok TDict v
| MNone : forall t, member_ok t VNone
| MMsg : forall c v, request_ok c v -> member_ok (TMsg c) v
| MList : forall t v l, elements v l -> (forall x, In x l -> elem_ok t x) -> member_ok (TList t) v
with elem_ok : vtyp -> value -> Prop :=
| ESimple : forall t v, simple t -> value_ok t v -> elem_ok t v
| EDict : forall v, elem_ok TDict v
| EList : forall t v, elem_ok (TList t) v
| ENone : forall t, elem_ok t VNone
| EMsg : forall c v, request_ok c v -> elem_ok (TMsg c) v.

(** ** ClaimsConstructor *)

(** isinstance for the types of the tables: an instance of the class or of a class below it *)
Definition instance_of (t : vtyp) (v : value) : Prop :=
  match t with
  | TStr => exists s, v = VStr s
  | TInt => (exists z, v = VInt z) \/ exists b, v = VBool b
  | TBool => exists b, v = VBool b
  | TDict => exists d, v = VDict d
  | TMsg c => exists c' d, v = VMsg c' d /\ subclass c' c = true
  | TList _ => False
  end.
(** what a claim may be set to *)
Definition admissible (c : cls) (k : ustr) (x : claim) : Prop :=
  forall s, dget (cd_param (cdef c)) k = Some s ->
  match x with
  | CV v => v = VNone \/ instance_of (p_typ s) v
  | CC base _ => exists c', p_typ s = TMsg c' /\ subclass base c' = true
  end.
(** the settings of a history that are accepted, and the last accepted one of a claim *)
Fixpoint cc_run (c : cls) (info : dict claim) (h : list (ustr * claim)) : dict claim :=
  match h with
  | [] => info
  | (k, x) :: h => cc_run c (match cc_set (cdef c) info k x with Ok i => i | Err _ => info end) h
  end.
Definition latest_of {A} (k : ustr) (h : list (ustr * A)) (P : A -> Prop) (x : A) : Prop :=
  exists h1 h2, h = h1 ++ (k, x) :: h2 /\ P x /\ forall y, In (k, y) h2 -> ~ P y.

(** what to_dict has to show of a claim: the value, and of a constructor a dictionary with what it has to
    show of each of its claims *)
Inductive shows : claim -> value -> Prop :=
| ShValue : forall v, shows (CV v) v
| ShNested : forall base info l, Forall2 (fun x y => fst y = fst x /\ shows (snd x) (snd y)) info l -> shows (CC base info) (VDict l).
