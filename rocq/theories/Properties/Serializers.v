(** C159: what the public serializers write, the public deserializers read. *)
From Coq Require Import List NArith ZArith Bool String.
From Verif Require Import Base.Ustr Base.Percent Model.Cls Model.Value Model.Pspec Model.Tables Model.Json Model.Message Model.Serializers
  Spec.JsonSpec Spec.MessageSpec Spec.CodecSpec Spec.RoundTripSpec Spec.SerializerSpec Proofs.SerializerLemmas Proofs.SerializerSamples.
Import ListNotations.
Open Scope list_scope.
Open Scope N_scope.

(** Every serializer for messages of a class writes, as JSON or as a dictionary and at every level, what every
    deserializer for that class reads as the same message. *)
Theorem C159_written_read : forall c ser k d f g lev, writer c ser -> reader c k -> nested_format f g ->
  content canon (cd_param (cdef c)) d -> covers_defaults (cdef c) d ->
  exists v d', ser (VMsg c d) f lev = Ok v /\ l_deser the_lib k v g = Ok (VMsg c d') /\ forall x, dget d' x = dget d x.
Proof. exact written_read. Qed.
Print Assumptions C159_written_read.

Example C159_case : let c := C_oidc_Claims in
  writer c claims_ser /\ reader c (DeOneOf c) /\ nested_format (u "json") Fjson /\ content canon (cd_param (cdef c)) ss_claims /\ covers_defaults (cdef c) ss_claims /\
  (do v <- msg_ser_json (VMsg c ss_claims) (u "json") 0 ; Ok v) =
    Ok (VStr (u "{""email"": {""essential"": true}, ""acr"": {""value"": ""x=y&z""}, ""picture"": null}")) /\
  (do v <- claims_ser (VMsg c ss_claims) (u "json") 0 ; l_deser the_lib (DeOneOf c) v Fjson) = Ok (VMsg c ss_claims).
Proof.
  cbv zeta. split; [constructor|]. split; [constructor|]. split; [constructor|]. split; [exact ss_claims_canon|]. split; [intros k []|].
  split; vm_compute; reflexivity.
Qed.

(** The same for query texts, from the serializers and with the deserializers that know them. *)
Theorem C159_written_read_url : forall c ser k d, url_writer c ser -> url_reader c k -> content urlable (cd_param (cdef c)) d -> covers_defaults (cdef c) d ->
  has_required (cdef c) d ->
  exists t d', ser (VMsg c d) (u "urlencoded") 0%nat = Ok (VStr t) /\ l_deser the_lib k (VStr t) Furl = Ok (VMsg c d') /\ forall x, dget d' x = dget d x.
Proof. exact written_read_url. Qed.
Print Assumptions C159_written_read_url.

Example C159_case_url : let c := C_oidc_AddressClaim in
  content urlable (cd_param (cdef c)) ss_address /\ covers_defaults (cdef c) ss_address /\ has_required (cdef c) ss_address /\
  msg_ser (VMsg c ss_address) (u "urlencoded") 0 = Ok (VStr (u "street_address=Kasamark+114+%26+co&country=%C3%A91")).
Proof.
  cbv zeta. split; [exact ss_address_urlable|]. split; [intros k []|]. split; [|vm_compute; reflexivity].
  intros k s H E. exfalso. repeat (destruct H as [H|H]; [injection H as <- <-; discriminate|]). destruct H.
Qed.

(** msg_ser_json writes JSON also when asked for a query text, and a reader that is told "urlencoded" may take it for
    a query text: with an "=" in it the parameters are lost without an error. *)
Theorem C159_json_taken_for_query : exists d t d', content canon (cd_param (cdef C_oidc_Claims)) d /\
  msg_ser_json (VMsg C_oidc_Claims d) (u "urlencoded") 0 = Ok (VStr t) /\
  l_deser the_lib (DeOneOf C_oidc_Claims) (VStr t) Furl = Ok (VMsg C_oidc_Claims d') /\ dget d (u "email") <> None /\ dget d' (u "email") = None.
Proof.
  exists ss_claims. do 2 eexists. split; [exact ss_claims_canon|]. split; [vm_compute; reflexivity|]. split; [vm_compute; reflexivity|].
  split; [vm_compute; discriminate|vm_compute; reflexivity].
Qed.
Print Assumptions C159_json_taken_for_query.

(** A plain dictionary is written so that it is read as the message that from_dict makes of it. *)
Theorem C159_dictionary_read : forall c ser k d d' f g lev, In ser [msg_ser; link_ser; claims_ser; msg_ser_json] -> reader c k -> nested_format f g ->
  json_value (VDict d) -> from_dict (cdef c) (cd_default (cdef c)) (VDict d) = (d', Ok tt) ->
  exists v, ser (VDict d) f lev = Ok v /\ (f = u "dict" -> v = VDict d) /\ l_deser the_lib k v g = Ok (VMsg c d').
Proof. exact plain_read. Qed.
Print Assumptions C159_dictionary_read.

Example C159_case_dictionary :
  from_dict (cdef C_oidc_Link) [] (VDict [(u "rel", VStr (u "r")); (u "properties", VDict [(u "k", VInt 3)])]) =
    ([(u "rel", VStr (u "r")); (u "properties", VDict [(u "k", VInt 3)])], Ok tt) /\
  link_ser (VDict [(u "rel", VStr (u "r")); (u "properties", VDict [(u "k", VInt 3)])]) (u "json") 1 = Ok (VStr (u "{""rel"": ""r"", ""properties"": {""k"": 3}}")).
Proof. split; vm_compute; reflexivity. Qed.

(** A dictionary of texts is written as the query text with its fields, in order. *)
Theorem C159_dictionary_fields : forall ser lev (l : list (ustr * ustr)), In ser [msg_ser; link_ser; claims_ser] ->
  (forall k v, In (k, v) l -> scalars k = true /\ scalars v = true /\ v <> []) ->
  exists t, ser (VDict (map (fun kv : ustr * ustr => (fst kv, VStr (snd kv))) l)) (u "urlencoded") lev = Ok (VStr t) /\ parse_qsl t = l.
Proof. exact query_dictionary. Qed.
Print Assumptions C159_dictionary_fields.

Example C159_case_fields :
  link_ser (VDict [(u "rel", VStr (u "a b")); (u "href", VStr (u "https://x/?y=1"))]) (u "urlencoded") 0 = Ok (VStr (u "rel=a+b&href=https%3A%2F%2Fx%2F%3Fy%3D1")).
Proof. vm_compute. reflexivity. Qed.

(** The fields of a dictionary with other values have Python's literals for these (texts of printable ASCII characters). *)
Theorem C159_dictionary_literals : forall ser lev d, In ser [msg_ser; link_ser; claims_ser] -> printable_value (VDict d) -> (forall k, ~ In (k, VStr []) d) ->
  exists t l, ser (VDict d) (u "urlencoded") lev = Ok (VStr t) /\ parse_qsl t = l /\
    Forall2 (fun (f : ustr * ustr) (kv : ustr * value) => fst f = fst kv /\ field_text (snd kv) (snd f)) l d.
Proof. exact query_values. Qed.
Print Assumptions C159_dictionary_literals.
Example C159_case_literals : printable_value (VDict ss_values) /\
  (exists t, msg_ser (VDict ss_values) (u "urlencoded") 1 = Ok (VStr t) /\
    parse_qsl t = [(u "n", u "-12"); (u "t", u "it's"); (u "l", u "['a\\b', ""it's"", 'it\'s ""', None]"); (u "d", u "{'essential': True, 'x': []}")]).
Proof.
  split; [exact ss_values_printable|]. eexists. split; vm_compute; reflexivity.
Qed.

(** A format that is none of the three is refused whatever the value is. *)
Theorem C159_other_formats : forall f lev v, ~ In f three_formats ->
  msg_ser v f lev = Err EOidcMsgError /\ link_ser v f lev = Err EOidcMsgError /\
  ((forall c d, v <> VMsg c d) -> (forall l, v <> VList l) -> claims_ser v f lev = Err EOidcMsgError) /\
  (forall c d, v = VMsg c d -> f <> u "jwt" -> f <> u "jwe" -> claims_ser v f lev = Err EAttributeError).
Proof. exact other_formats. Qed.
Print Assumptions C159_other_formats.

Example C159_case_formats : ~ In (u "foo") three_formats /\ claims_ser (VMsg C_oidc_Claims ss_claims) (u "foo") 0 = Err EAttributeError /\
  msg_ser_json (VDict ss_claims) (u "foo") 0 <> Err EOidcMsgError.
Proof. split; [intro H; repeat (destruct H as [H|H]; [discriminate|]); destruct H|]. split; [vm_compute; reflexivity|vm_compute; discriminate]. Qed.

(** Lists of messages and of links. *)
Theorem C159_lists : forall c ser k l f g, list_pair c ser k -> nested_format f g -> (forall d, In d l -> content canon (cd_param (cdef c)) d) ->
  exists v l', ser (VList (map (VMsg c) l)) f = Ok v /\ l_deser the_lib k v g = Ok (VList (map (VMsg c) l')) /\
    Forall2 (fun d' d => forall x, dget d' x = dget d x) l' l.
Proof. exact lists_of_messages. Qed.
Print Assumptions C159_lists.
Example C159_case_lists : list_pair C_Message msg_list_ser DeMsgList /\ content canon (cd_param (cdef C_Message)) ss_claims /\
  msg_list_ser (VList [VMsg C_Message ss_claims; VMsg C_Message []]) (u "json") =
    Ok (VList [VStr (u "{""email"": {""essential"": true}, ""acr"": {""value"": ""x=y&z""}, ""picture"": null}"); VStr (u "{}")]) /\
  l_deser the_lib DeMsgList (VList [VStr (u "{""a"": 1}"); VDict [(u "b", VNone)]]) Fjson = Ok (VList [VMsg C_Message [(u "a", VInt 1)]; VMsg C_Message [(u "b", VNone)]]).
Proof. split; [constructor|]. split; [exact ss_claims_message|]. split; vm_compute; reflexivity. Qed.

(** Lists of texts are left alone except for query texts; what is no list is refused.  (C21 has the texts with blanks.) *)
Theorem C159_text_lists : forall l v f g s, f <> u "urlencoded" -> g <> Furl -> (forall l', v <> VList l') ->
  list_serializer (VList l) f = Ok (VList l) /\ l_deser the_lib DeList (VList l) g = Ok (VList l) /\ list_serializer v f = Err EValueError /\
  list_serializer v (u "urlencoded") = Err EValueError /\ sp_sep_list_serializer (VStr s) = Ok (VStr s).
Proof. exact list_formats. Qed.
Print Assumptions C159_text_lists.

(** to_dict and to_urlencoded write with these functions. *)
Theorem C159_in_to_dict : forall s v n r, public s v (u "dict") (S n) = Some r -> ser_dict to_dict_v s v = r.
Proof. exact used_in_to_dict. Qed.
Print Assumptions C159_in_to_dict.
Theorem C159_in_query : forall s l t, ser_url_list s (VList l) = Ok t -> public s (VList l) (u "urlencoded") 0 = Some (Ok (VStr t)).
Proof. exact used_in_query. Qed.
Print Assumptions C159_in_query.
Example C159_case_used :
  public SerClaims (VList [VMsg C_oidc_Claims ss_claims]) (u "dict") 1 = Some (Ok (VDict ss_claims)) /\
  ser_url_list SerSpSep (VList [VStr (u "a"); VStr (u "b")]) = Ok (u "a b").
Proof. split; vm_compute; reflexivity. Qed.

(** Values that are neither messages nor dictionaries nor texts are no part of a dictionary; as parts of texts they are
    left alone.  Messages of other classes are no links. *)
Theorem C159_no_messages : forall lev v, (forall d, v <> VDict d) -> (forall s, v <> VStr s) ->
  ((forall c d, v <> VMsg c d) -> msg_ser v (u "dict") lev = Err EMessageException /\ forall f, In f [u "json"; u "urlencoded"] -> msg_ser v f lev = Ok v) /\
  ((forall c d, v = VMsg c d -> subclass c C_oidc_Link = false) -> link_ser v (u "dict") lev = Err EMessageException /\ forall f, In f [u "json"; u "urlencoded"] -> link_ser v f lev = Ok v) /\
  ((forall c d, v <> VMsg c d) -> msg_ser_json v (u "dict") lev = Err EMessageException).
Proof. exact not_instances. Qed.
Print Assumptions C159_no_messages.
Example C159_case_no_messages : subclass C_oidc_Claims C_oidc_Link = false /\ link_ser (VMsg C_oidc_Claims []) (u "dict") 0 = Err EMessageException /\
  link_ser (VMsg C_oidc_Link []) (u "dict") 0 = Ok (VDict []).
Proof. repeat split; vm_compute; reflexivity. Qed.

(** What any_ser makes of values ... *)
Theorem C159_any_written : forall f lev,
  (forall v, (exists s, v = VStr s) \/ (exists z, v = VInt z) \/ (exists b, v = VBool b) -> any_ser v f lev = Ok v) /\
  any_ser VNone f lev = Err EValueError /\
  (forall d, json_value (VDict d) -> exists t, any_ser (VDict d) f lev = Ok (VStr t) /\ json_loads t = Ok (VDict d)) /\
  (forall l, any_ser (VList l) f lev = msg_list_ser (VList l) (u "urlencoded")).
Proof. exact any_written. Qed.
Print Assumptions C159_any_written.
(** ... and any_deser of dictionaries and of lists of them. *)
Theorem C159_any_read : forall d g, ~ In (u "self") (map fst d) -> ~ In (u "set_defaults") (map fst d) ->
  any_deser (VDict d) g = (do x <- ret_msg (from_dict (cdef C_Message) [] (VDict d)) ; Ok (VMsg C_Message x)).
Proof. exact any_dictionary. Qed.
Print Assumptions C159_any_read.
Theorem C159_any_read_list : forall l g, g <> Furl -> (forall d, In d l -> json_value (VDict d) /\ ~ In (u "self") (map fst d) /\ ~ In (u "set_defaults") (map fst d)) ->
  forall ms, mapM (fun d => any_deser (VDict d) g) l = Ok ms -> any_deser (VList (map VDict l)) g = Ok (VList ms).
Proof. exact any_list. Qed.
Print Assumptions C159_any_read_list.

(** any_ser and any_deser do not fit together: the text that the first makes of a dictionary, the second refuses. *)
Theorem C159_any_one_way : forall d f lev w g, any_ser (VDict d) f lev = Ok w -> any_deser w g = Err EValueError.
Proof. exact any_one_way. Qed.
Print Assumptions C159_any_one_way.

Example C159_case_any : any_ser (VDict [(u "a", VInt 1)]) (u "json") 0 = Ok (VStr (u "{""a"": 1}")) /\
  any_deser (VDict [(u "a", VInt 1)]) Fjson = Ok (VMsg C_Message [(u "a", VInt 1)]).
Proof. split; vm_compute; reflexivity. Qed.
