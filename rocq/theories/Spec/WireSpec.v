(** JSON documents that are written by other implementations: each member has the JSON type that the
    protocol gives to the parameter.  No function of Model/Message.v is used. *)
From Coq Require Import List NArith ZArith Bool String.
From Verif Require Import Base.Ustr Model.Cls Model.Value Model.Pspec Model.Tables
  Spec.JsonSpec Spec.MessageSpec Spec.CodecSpec Spec.RoundTripSpec.
Import ListNotations.
Open Scope list_scope.
Open Scope N_scope.

(** a document is given by triples: a name, the JSON value, and the value that stands for it in a message *)
Definition member := (ustr * value * value)%type.
Definition name_of (x : member) : ustr := fst (fst x).
Definition as_json (l : list member) : dict value := map (fun x => (name_of x, snd (fst x))) l.
Definition as_message (l : list member) : dict value := map (fun x => (name_of x, snd x)) l.

(** the words of a text *)
Fixpoint words (l : list ustr) : ustr :=
  match l with [] => [] | [x] => x | x :: r => x ++ 32 :: words r end.

(** [wire s v w]: the JSON value [v] has the type that the specification [s] declares, and stands for [w] *)
Inductive wire : option pspec -> value -> value -> Prop :=
| WrAny : forall v, json_value v -> ~ blank v -> wire None v v
| WrNull : forall s, p_ser s = None -> (forall t, p_typ s <> TList t) -> wire (Some s) VNone VNone
| WrStr : forall s t, p_typ s = TStr -> p_ser s = None -> scalars t = true -> t <> [] -> wire (Some s) (VStr t) (VStr t)
| WrInt : forall s z, p_typ s = TInt -> p_ser s = None -> wire (Some s) (VInt z) (VInt z)
| WrBool : forall s b, p_typ s = TBool -> p_ser s = None -> wire (Some s) (VBool b) (VBool b)
  (* an array of texts *)
| WrList : forall s l, p_typ s = TList TStr -> p_ser s = Some SerList -> p_deser s = Some DeList ->
    texts l -> l <> [] -> l <> [[]] -> wire (Some s) (VList (map VStr l)) (VList (map VStr l))
  (* a text of words *)
| WrWords : forall s l, p_typ s = TList TStr -> p_ser s = Some SerSpSep -> p_deser s = Some DeSpSep ->
    texts l -> blank_free l -> l <> [] -> l <> [[]] -> wire (Some s) (VStr (words l)) (VList (map VStr l))
  (* an object *)
| WrObject : forall s d, p_typ s = TDict -> p_ser s = Some SerMsgJson -> p_deser s = Some DeDict ->
    json_value (VDict d) -> wire (Some s) (VDict d) (VDict d)
  (* a JWT *)
| WrToken : forall s t, p_typ s = TMsg C_Message -> p_ser s = Some SerMsg -> p_deser s = None ->
    scalars t = true -> t <> [] -> wire (Some s) (VStr t) (VStr t)
  (* an object with the members of a class *)
| WrMsg : forall s c l, nests s c -> cd_default (cdef c) = [] -> NoDup (map name_of l) ->
    (forall k v w, In (k, v, w) l -> scalars k = true) ->
    (forall k v w, In (k, v, w) l -> wire (param_spec (cd_param (cdef c)) k) v w) ->
    wire (Some s) (VDict (as_json l)) (VMsg c (as_message l))
  (* an array of such objects *)
| WrMsgs : forall s c ls, nests_list s c -> cd_default (cdef c) = [] -> ls <> [] ->
    (forall l, In l ls -> NoDup (map name_of l)) ->
    (forall l k v w, In l ls -> In (k, v, w) l -> scalars k = true /\ k <> u "self" /\ k <> u "set_defaults" /\
       settled (param_spec (cd_param (cdef c)) k) w) ->
    (forall l k v w, In l ls -> In (k, v, w) l -> wire (param_spec (cd_param (cdef c)) k) v w) ->
    wire (Some s) (VList (map (fun l => VDict (as_json l)) ls)) (VList (map (fun l => VMsg c (as_message l)) ls)).

(** other forms that are understood, too: an object for a parameter that this library writes as a text of
    JSON, a single text where an array is expected, an array for a text of words *)
Inductive tolerated : option pspec -> value -> value -> Prop :=
| TlWire : forall s v w, wire s v w -> tolerated s v w
| TlObject : forall s d, p_typ s = TDict -> p_ser s = Some SerJson -> p_deser s = Some DeJson -> json_value (VDict d) -> tolerated (Some s) (VDict d) (VDict d)
| TlOne : forall s t, p_typ s = TList TStr -> p_ser s = Some SerList -> p_deser s = Some DeList -> scalars t = true -> t <> [] -> ~ In 32 t ->
    tolerated (Some s) (VStr t) (VList [VStr t])
| TlArray : forall s l, p_typ s = TList TStr -> p_ser s = Some SerSpSep -> p_deser s = Some DeSpSep ->
    texts l -> blank_free l -> l <> [] -> l <> [[]] -> tolerated (Some s) (VList (map VStr l)) (VList (map VStr l)).

Definition document (Q : option pspec -> value -> value -> Prop) (P : dict pspec) (l : list member) : Prop :=
  NoDup (map name_of l) /\ forall k v w, In (k, v, w) l -> scalars k = true /\ Q (param_spec P k) v w.
