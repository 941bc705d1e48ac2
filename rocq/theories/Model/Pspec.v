(** Parameter specifications and class tables. *)
From Coq Require Import List NArith Bool.
From Verif Require Import Base.Ustr Model.Cls Model.Value.
Import ListNotations.

(** value types of specification tuples (src/oidcmsg/message.py:959-992,
    src/oidcmsg/oidc/__init__.py:92-217,1028,1108, identity_assurance.py).
    [any] (message.py:1017), used by no class, is left out. *)
Inductive vtyp := TStr | TInt | TBool | TDict | TMsg (c : cls) | TList (t : vtyp).

(** serializers: SerList message.py:863-869, SerSpSep 882-886, SerJson 898-899 and
    oidc/__init__.py:83-84, SerMsg message.py:916-939, SerMsgJson oidc:111-132,
    SerClaims oidc:139-166, SerMsgList message.py:952-956, SerLinkList oidc:1075-1105,
    SerTime identity_assurance.py:101-112, SerDate :126-137 *)
Inductive serk := SerList | SerSpSep | SerJson | SerMsg | SerMsgJson | SerClaims
                | SerMsgList | SerLinkList | SerTime | SerDate.

(** deserializers: DeList message.py:872-879, DeSpSep 889-895, DeJson 902-903 and
    oidc:87-88, DeMsg message.py:906-913, DeMsgList 942-949, DeOneOf oidc:67-80 with the
    class to build, DeJsonCls oidc:173-186 and identity_assurance.py:31-44, DeDict
    oidc:189-200, DeLink oidc:1058-1072, DeMsgCls identity_assurance.py:174-181 and its
    copies for other classes, DeEvidenceList :264-269, DeTime :115-119, DeDate :140-144 *)
Inductive deserk := DeList | DeSpSep | DeJson | DeMsg | DeMsgList
                  | DeOneOf (c : cls) | DeJsonCls (c : cls) | DeDict | DeLink
                  | DeMsgCls (c : cls) | DeEvidenceList | DeTime | DeDate.

(** a 5-tuple (type, required, serializer, deserializer, null allowed),
    src/oidcmsg/message.py:959-963 *)
Record pspec := mkP {
  p_typ : vtyp; p_req : bool; p_ser : option serk; p_deser : option deserk; p_null : bool }.

(** class attributes c_param, c_default, c_allowed_values and the class name,
    src/oidcmsg/message.py:29-35 *)
Record clsdef := {
  cd_name : ustr;
  cd_param : dict pspec;
  cd_default : dict value;
  cd_allowed : dict (list value) }.
