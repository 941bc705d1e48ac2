(** What the properties of class Message mean, without reference to the functions
    of Model/Message.v. *)
From Coq Require Import List NArith ZArith QArith Bool String.
From Verif Require Import Base.Ustr Model.Value Model.Pspec Spec.JsonSpec.
Import ListNotations.
Open Scope list_scope.
Open Scope N_scope.

(** the part of a key before the language tag *)
Fixpoint before_hash (k : ustr) : ustr :=
  match k with
  | [] => []
  | c :: r => if c =? 35 then [] else c :: before_hash r
  end.

(** The specification that governs a key: its own entry in the table, else the entry
    of the key without language tag, else the '*' entry. *)
Definition param_spec (P : dict pspec) (k : ustr) : option pspec :=
  match dget P k with
  | Some s => Some s
  | None => match dget P (before_hash k) with
            | Some s => Some s
            | None => dget P (u "*")
            end
  end.

(** A key has a '#'-separated language tag: [k = base ++ "#" ++ tag]. *)
Definition tagged (base tag : ustr) : ustr := base ++ 35 :: tag.

(** keys the table says nothing about *)
Definition undeclared (P : dict pspec) (k : ustr) : Prop :=
  ~ In k (map fst P) /\ ~ In (before_hash k) (map fst P) /\ ~ In (u "*") (map fst P).

(** Python falsehood: None, False, zero and empty containers *)
Inductive empty_value : value -> Prop :=
| ENone : empty_value VNone
| EFalse : empty_value (VBool false)
| EZero : empty_value (VInt 0)
| EZeroF : forall q, (q == 0)%Q -> empty_value (VFlt q)
| EStr : empty_value (VStr [])
| EList : empty_value (VList [])
| EDict : empty_value (VDict [])
| EMsg : forall c, empty_value (VMsg c []).

(** the values from_dict skips *)
Definition blank (v : value) : Prop := v = VStr [] \/ v = VList [VStr []].

(** A present parameter counts as given unless it is empty; booleans always count. *)
Definition given (s : pspec) (v : value) : Prop := p_typ s = TBool \/ ~ empty_value v.

(** a value restricted to [al] *)
Definition allowed_value (s : pspec) (al : list value) (v : value) : Prop :=
  let mem x := exists y, In y al /\ py_eq y x = true in
  match p_typ s with
  | TStr | TInt => mem v
  | TList _ => forall l, v = VList l -> forall x, In x l -> mem x
  | _ => v = VNone -> p_null s = true
  end.

(** The parameter table is satisfied by the content [d]. *)
Definition missing (C : clsdef) (d : dict value) (a : ustr) : Prop :=
  exists s, In (a, s) (cd_param C) /\ a <> u "*" /\ p_req s = true /\
    ~ exists v, dget d a = Some v /\ given s v.
Definition not_allowed (C : clsdef) (d : dict value) (a : ustr) : Prop :=
  exists s v al, In (a, s) (cd_param C) /\ a <> u "*" /\ dget d a = Some v /\ given s v /\
    dget (cd_allowed C) a = Some al /\ ~ allowed_value s al v.

(** types of plain parameters *)
Inductive has_type : vtyp -> value -> Prop :=
| HStr : forall s, has_type TStr (VStr s)
| HInt : forall z, has_type TInt (VInt z)
| HBool : forall b, has_type TBool (VBool b)
| HStrs : forall l, (forall x, In x l -> exists s, x = VStr s) -> has_type (TList TStr) (VList l).
Definition plain_type (t : vtyp) : Prop := t = TStr \/ t = TInt \/ t = TBool \/ t = TList TStr.

(** every parameter of plain type that has a value has one of its type *)
Definition well_typed (P : dict pspec) (d : dict value) : Prop :=
  forall k s v, param_spec P k = Some s -> plain_type (p_typ s) -> dget d k = Some v ->
    v <> VNone -> has_type (p_typ s) v.

(** plain parameters: no conversion but that of string lists *)
Definition plain_spec (s : pspec) : Prop :=
  ((p_typ s = TStr \/ p_typ s = TInt \/ p_typ s = TBool) /\ p_deser s = None) \/
  (p_typ s = TList TStr /\ (p_deser s = Some DeList \/ p_deser s = Some DeSpSep)).
Definition well_typed_plain (P : dict pspec) (d : dict value) : Prop :=
  forall k s v, param_spec P k = Some s -> plain_spec s -> dget d k = Some v ->
    v <> VNone -> has_type (p_typ s) v.

(** no dictionary is given for a list-valued parameter *)
Definition no_dict_for_list (P : dict pspec) (l : dict value) : Prop :=
  forall k e s t, In (k, VDict e) l -> param_spec P k = Some s -> p_typ s <> TList t.

(** every plain parameter of string or string-list type has a value of its type *)
Definition text_typed (P : dict pspec) (d : dict value) : Prop :=
  forall k s v, param_spec P k = Some s -> plain_spec s -> p_typ s = TStr \/ p_typ s = TList TStr ->
    dget d k = Some v -> has_type (p_typ s) v.

(** no parameter is blank *)
Definition no_blanks (d : dict value) : Prop := forall k v, dget d k = Some v -> ~ blank v.
(** no parameter of the table is read as JSON text *)
Definition no_json_specs (P : dict pspec) : Prop := forall k s, In (k, s) P -> p_deser s <> Some DeJson.

(** ** query strings *)
(** a field [name=value] with a non-blank value, both percent-decoded *)
From Verif Require Import Base.Percent.
Definition field_gives (f k v : ustr) : Prop :=
  exists name val, f = name ++ 61 :: val /\ ~ In 61 name /\ val <> [] /\
    unquote_plus name = k /\ unquote_plus val = v.
(** the '&'-separated fields of [q] at two different places give a value to [k] *)
Definition given_twice (q k : ustr) : Prop :=
  exists i j f g v w, (i < j)%nat /\ nth_error (split_on 38 q) i = Some f /\
    nth_error (split_on 38 q) j = Some g /\ field_gives f k v /\ field_gives g k w.

(** the query component of a URL: what follows the first '?', up to the first '#' *)
Fixpoint query_of (url : ustr) : ustr :=
  match url with
  | [] => []
  | c :: r => if c =? 63 then before_hash r else query_of r
  end.

(** ** the abstract map a message is *)
Inductive mop :=
| OSet (k : ustr) (v : value)          (* m[k] = v *)
| ODel (k : ustr)                      (* del m[k] *)
| OUpdate (e : dict value)             (* m.update(e) *)
| OGet (k : ustr) (default : value)    (* m.get(k, default) *)
| OItem (k : ustr)                     (* m[k] *)
| OIn (k : ustr)                       (* k in m *)
| OLen                                 (* len(m) *)
| OKeys.                               (* list(m.keys()) *)
Inductive mout :=
| RNone | RExn (e : exn) | RVal (v : value) | RBool (b : bool) | RNat (n : nat) | RKeys (l : list ustr).

Definition amap := ustr -> option value.
Definition aset (m : amap) (k : ustr) (v : option value) : amap :=
  fun x => if ueq_dec x k then v else m x.

(** one operation on the abstract map *)
Inductive astep (m : amap) : mop -> amap -> mout -> Prop :=
| ASet : forall k v, astep m (OSet k v) (aset m k (Some v)) RNone
| ADel : forall k v, m k = Some v -> astep m (ODel k) (aset m k None) RNone
| ADelMiss : forall k, m k = None -> astep m (ODel k) m (RExn EKeyError)
| AUpdate : forall e, astep m (OUpdate e)
    (fun x => match dget (rev e) x with Some v => Some v | None => m x end) RNone
| AGet : forall k v dv, m k = Some v -> astep m (OGet k dv) m (RVal v)
| AGetMiss : forall k dv, m k = None -> astep m (OGet k dv) m (RVal dv)
| AItem : forall k v, m k = Some v -> astep m (OItem k) m (RVal v)
| AItemMiss : forall k, m k = None -> astep m (OItem k) m (RExn EKeyError)
| AIn : forall k v, m k = Some v -> astep m (OIn k) m (RBool true)
| AInMiss : forall k, m k = None -> astep m (OIn k) m (RBool false)
| ALen : forall l, NoDup l -> (forall k, In k l <-> m k <> None) -> astep m OLen m (RNat (List.length l))
| AKeys : forall l, NoDup l -> (forall k, In k l <-> m k <> None) -> astep m OKeys m (RKeys l).

(** a history with its outputs; maps are compared pointwise *)
Inductive aruns : amap -> list mop -> amap -> list mout -> Prop :=
| ANil : forall m m', (forall k, m k = m' k) -> aruns m [] m' []
| ACons : forall m o m1 r os m2 rs, astep m o m1 r -> aruns m1 os m2 rs -> aruns m (o :: os) m2 (r :: rs).
