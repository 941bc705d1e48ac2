(** The public serializers and the deserializers that go with them. *)
From Coq Require Import List NArith Bool String.
From Verif Require Import Base.Ustr Model.Cls Model.Value Model.Pspec Model.Message Model.Serializers.
Import ListNotations.
Open Scope list_scope.
Open Scope N_scope.

(** the functions that write messages of the class *)
Inductive writer (c : cls) : (value -> ustr -> nat -> res value) -> Prop :=
| WMsg : writer c msg_ser
| WMsgJson : writer c msg_ser_json
| WClaims : writer c claims_ser
| WLink : c = C_oidc_Link -> writer c link_ser
| WAny : writer c any_ser.
(** the functions that read messages of the class *)
Inductive reader (c : cls) : deserk -> Prop :=
| ROneOf : reader c (DeOneOf c)
| RMsgCls : reader c (DeMsgCls c)
| RJsonCls : reader c (DeJsonCls c)
| RMsg : c = C_Message -> reader c DeMsg
| RLink : c = C_oidc_Link -> reader c DeLink.
(** the names of the formats for nested values *)
Inductive nested_format : ustr -> sfmt -> Prop :=
| NfJson : nested_format (u "json") Fjson
| NfDict : nested_format (u "dict") Fdict.
(** the writers of query texts, and the readers that accept them *)
Inductive url_writer (c : cls) : (value -> ustr -> nat -> res value) -> Prop :=
| UwMsg : url_writer c msg_ser
| UwLink : c = C_oidc_Link -> url_writer c link_ser
| UwAny : url_writer c any_ser.
Inductive url_reader (c : cls) : deserk -> Prop :=
| UrdOneOf : url_reader c (DeOneOf c)
| UrdMsgCls : url_reader c (DeMsgCls c)
| UrdMsg : c = C_Message -> url_reader c DeMsg
| UrdLink : c = C_oidc_Link -> url_reader c DeLink.
Definition three_formats : list ustr := [u "urlencoded"; u "json"; u "dict"].

(** ** Python's literals, as far as repr writes them (printable ASCII, no floats) *)
(** the text between the quotation marks [q], and the string it stands for *)
Inductive quoted (q : N) : ustr -> ustr -> Prop :=
| QEnd : quoted q [] []
| QPlain : forall c t s, c <> q -> c <> 92 -> quoted q t s -> quoted q (c :: t) (c :: s)
| QEscaped : forall c t s, c = q \/ c = 92 -> quoted q t s -> quoted q (92 :: c :: t) (c :: s).
Inductive string_literal : ustr -> ustr -> Prop :=
| SlSingle : forall t s, ~ (In 39 s /\ ~ In 34 s) -> quoted 39 t s -> string_literal ([39] ++ t ++ [39]) s
| SlDouble : forall t s, In 39 s -> ~ In 34 s -> quoted 34 t s -> string_literal ([34] ++ t ++ [34]) s.
Inductive literal : ustr -> value -> Prop :=
| LNone : literal (u "None") VNone
| LTrue : literal (u "True") (VBool true)
| LFalse : literal (u "False") (VBool false)
| LInt : forall z, literal (dec_Z z) (VInt z)
| LText : forall t s, string_literal t s -> literal t (VStr s)
| LList : forall ts l, Forall2 literal ts l -> literal (u "[" ++ join (u ", ") ts ++ u "]") (VList l)
| LDict : forall keys ts d, Forall2 (fun t (kv : ustr * value) => string_literal t (fst kv)) keys d ->
    Forall2 (fun t (kv : ustr * value) => literal t (snd kv)) ts d ->
    literal (u "{" ++ join (u ", ") (map (fun kt : ustr * ustr => fst kt ++ u ": " ++ snd kt) (combine keys ts)) ++ u "}") (VDict d).
(** values whose texts are printable ASCII *)
Inductive printable_value : value -> Prop :=
| PvNone : printable_value VNone
| PvBool : forall b, printable_value (VBool b)
| PvInt : forall z, printable_value (VInt z)
| PvStr : forall s, Forall (fun c => 32 <= c <= 126) s -> printable_value (VStr s)
| PvList : forall l, (forall x, In x l -> printable_value x) -> printable_value (VList l)
| PvDict : forall d, (forall k x, In (k, x) d -> Forall (fun c => 32 <= c <= 126) k /\ printable_value x) -> printable_value (VDict d).
(** the text of a field: a string as it is, any other value as a literal *)
Definition field_text (v : value) (t : ustr) : Prop := match v with VStr s => t = s | _ => literal t v end.

(** the function behind the name of a serializer in the tables *)
Definition public (s : serk) (v : value) (f : ustr) (lev : nat) : option (res value) :=
  match s with
  | SerList => Some (list_serializer v f)
  | SerSpSep => Some (sp_sep_list_serializer v)
  | SerJson => Some (json_serializer v)
  | SerMsg => Some (msg_ser v f lev)
  | SerMsgJson => Some (msg_ser_json v f lev)
  | SerClaims => Some (claims_ser v f lev)
  | SerMsgList => Some (msg_list_ser v f)
  | SerLinkList => Some (link_list_ser v f)
  | SerTime | SerDate => None
  end.
(** serializers and deserializers for lists of messages of a class *)
Inductive list_pair : cls -> (value -> ustr -> res value) -> deserk -> Prop :=
| LpMsg : list_pair C_Message msg_list_ser DeMsgList
| LpLink : list_pair C_oidc_Link link_list_ser DeLink.
