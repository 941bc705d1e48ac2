(** The contents that the round trip properties are about: each parameter holds a value of its
    declared kind.  No function of Model/Message.v is used. *)
From Coq Require Import List NArith ZArith Bool String.
From Verif Require Import Base.Ustr Model.Cls Model.Value Model.Pspec Model.Tables Spec.JsonSpec Spec.MessageSpec Spec.CodecSpec.
Import ListNotations.
Open Scope list_scope.
Open Scope N_scope.

Definition texts (l : list ustr) : Prop := forall s, In s l -> scalars s = true.

(** values without nested messages, by the specification of their parameter *)
Inductive plain : option pspec -> value -> Prop :=
| PlAny : forall v, json_value v -> ~ blank v -> plain None v
| PlNone : forall s, p_ser s = None -> (forall t, p_typ s <> TList t) -> plain (Some s) VNone
| PlStr : forall s t, p_typ s = TStr -> p_ser s = None -> scalars t = true -> t <> [] -> plain (Some s) (VStr t)
| PlInt : forall s z, p_typ s = TInt -> p_ser s = None -> plain (Some s) (VInt z)
| PlBool : forall s b, p_typ s = TBool -> p_ser s = None -> plain (Some s) (VBool b)
| PlList : forall s l, p_typ s = TList TStr -> p_ser s = Some SerList -> p_deser s = Some DeList ->
    texts l -> l <> [] -> l <> [[]] -> plain (Some s) (VList (map VStr l))
| PlSpSep : forall s l, p_typ s = TList TStr -> p_ser s = Some SerSpSep -> p_deser s = Some DeSpSep ->
    texts l -> blank_free l -> l <> [] -> l <> [[]] -> plain (Some s) (VList (map VStr l))
| PlJson : forall s d, p_typ s = TDict ->
    (p_ser s = Some SerJson /\ p_deser s = Some DeJson \/ p_ser s = Some SerMsgJson /\ p_deser s = Some DeDict) ->
    json_value (VDict d) -> plain (Some s) (VDict d)
| PlToken : forall s t, p_typ s = TMsg C_Message -> p_ser s = Some SerMsg -> p_deser s = None ->
    scalars t = true -> t <> [] -> plain (Some s) (VStr t).

(** the specification is for a nested message of class [c], or a list of them *)
Definition nests (s : pspec) (c : cls) : Prop :=
  (exists t, p_typ s = TMsg t) /\
  (p_ser s = Some SerMsg \/ p_ser s = Some SerMsgJson \/ p_ser s = Some SerClaims) /\
  (p_deser s = Some DeMsg /\ c = C_Message \/ p_deser s = Some (DeMsgCls c) \/ p_deser s = Some (DeOneOf c) \/
   p_deser s = Some (DeJsonCls c)).
Definition nests_list (s : pspec) (c : cls) : Prop :=
  p_typ s = TList (TMsg c) /\
  (c = C_oidc_Link /\ p_ser s = Some SerLinkList /\ p_deser s = Some DeLink \/
   c = C_ida_Evidence /\ p_ser s = Some SerMsgList /\ p_deser s = Some DeEvidenceList \/
   c = C_Message /\ p_ser s = Some SerMsgList /\ p_deser s = Some DeMsgList).

(** [content Q P d]: distinct keys without surrogates, each value satisfying Q for its specification *)
Definition content (Q : option pspec -> value -> Prop) (P : dict pspec) (d : dict value) : Prop :=
  NoDup (map fst d) /\ forall k v, In (k, v) d -> scalars k = true /\ Q (param_spec P k) v.

(** an entry of a list element: no list of messages, and a message of the declared class *)
Definition settled (s : option pspec) (v : value) : Prop :=
  match v with
  | VList (VMsg _ _ :: _) => False
  | VMsg c _ => exists s' t, s = Some s' /\ p_typ s' = TMsg t /\ subclass c t = true
  | _ => True
  end.

Inductive canon : option pspec -> value -> Prop :=
| CnPlain : forall s v, plain s v -> canon s v
| CnMsg : forall s c d, nests s c -> cd_default (cdef c) = [] ->
    NoDup (map fst d) -> (forall k v, In (k, v) d -> scalars k = true) ->
    (forall k v, In (k, v) d -> canon (param_spec (cd_param (cdef c)) k) v) ->
    canon (Some s) (VMsg c d)
| CnMsgs : forall s c l, nests_list s c -> cd_default (cdef c) = [] -> l <> [] ->
    (forall d, In d l -> NoDup (map fst d)) ->
    (forall d k v, In d l -> In (k, v) d -> scalars k = true /\ k <> u "self" /\ k <> u "set_defaults" /\
       settled (param_spec (cd_param (cdef c)) k) v) ->
    (forall d k v, In d l -> In (k, v) d -> canon (param_spec (cd_param (cdef c)) k) v) ->
    canon (Some s) (VList (map (VMsg c) l)).

(** a fresh instance gets the defaults of its class: they are among the parameters *)
Definition covers_defaults (C : clsdef) (d : dict value) : Prop :=
  forall k, In k (map fst (cd_default C)) -> In k (map fst d).

(** values that have an urlencoded form reading back as themselves, by the specification of their
    parameter: non-empty texts, lists of texts, JSON documents and messages with a JSON form *)
Inductive urlable : option pspec -> value -> Prop :=
| UrAny : forall t, scalars t = true -> t <> [] -> urlable None (VStr t)
| UrAnys : forall x y l, texts (x :: y :: l) -> ~ In [] (x :: y :: l) -> urlable None (VList (map VStr (x :: y :: l)))
| UrStr : forall s t, (forall e, p_typ s <> TList e) -> p_deser s = None -> scalars t = true -> t <> [] -> urlable (Some s) (VStr t)
| UrList : forall s e l, p_typ s = TList e -> (p_ser s = Some SerList \/ p_ser s = Some SerSpSep) ->
    (p_deser s = Some DeList \/ p_deser s = Some DeSpSep) ->
    texts l -> blank_free l -> l <> [] -> l <> [[]] -> urlable (Some s) (VList (map VStr l))
| UrMany : forall s e l, p_typ s = TList e -> p_ser s = None -> p_deser s = None ->
    texts l -> ~ In [] l -> l <> [] -> urlable (Some s) (VList (map VStr l))
| UrJson : forall s d, p_ser s = Some SerJson -> p_deser s = Some DeJson ->
    json_value (VDict d) -> urlable (Some s) (VDict d)
| UrMsg : forall s c d, nests s c -> p_deser s = Some (DeJsonCls c) -> canon (Some s) (VMsg c d) -> urlable (Some s) (VMsg c d).

(** every required parameter is there *)
Definition has_required (C : clsdef) (d : dict value) : Prop :=
  forall k s, In (k, s) (cd_param C) -> p_req s = true -> In k (map fst d).
