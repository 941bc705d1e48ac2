(** C161, C162: classes by their names; the deserializers for tokens. *)
From Coq Require Import List NArith ZArith Bool String.
From Verif Require Import Base.Ustr Model.Cls Model.Value Model.Pspec Model.Tables Model.Json Model.Message Model.Config Model.Dispatch Model.Serializers Model.Names
  Spec.JsonSpec Spec.MessageSpec Spec.RoundTripSpec Spec.SerializerSpec Proofs.NamesLemmas.
Import ListNotations.
Open Scope list_scope.
Open Scope N_scope.

(** C161: importing the qualified name of a class, or its module and name with a colon between them, asks the module
    of that class, and no other, for that name. *)
Theorem C161_found_again : forall M A (imp : ustr -> res M) (get : M -> ustr -> res A) module name m,
  imp module = Ok m -> ~ In 58 module -> ~ In 58 name ->
  (~ In 46 name -> importer imp get (qualified_name module name) = get m name) /\ importer imp get (module ++ u ":" ++ name) = get m name.
Proof. exact found_again. Qed.
Print Assumptions C161_found_again.

Example C161_case : importer ns_modules ns_getattr (qualified_name (u "oidcmsg.oidc") (u "IdToken")) = Ok 1%nat /\
  importer ns_modules ns_getattr (u "oidcmsg.message:Message") = Ok 3%nat /\ importer ns_modules ns_getattr (u "oidcmsg.oidc.Message") = Ok 2%nat /\
  importer ns_modules ns_getattr (u "oidcmsg.message.IdToken") = Err EAttributeError /\ importer ns_modules ns_getattr (u "Message") = Err EValueError /\
  importer ns_modules ns_getattr (u "oidc.Message") = Err EOSError.
Proof. repeat split; vm_compute; reflexivity. Qed.

(** Classes with the same qualified name have the same module and the same name. *)
Theorem C161_names_apart : forall m n m' n', ~ In 58 (m ++ n ++ m' ++ n') -> ~ In 46 n -> ~ In 46 n' ->
  qualified_name m n = qualified_name m' n' -> m = m' /\ n = n'.
Proof. exact names_apart. Qed.
Print Assumptions C161_names_apart.

Example C161_case_apart : qualified_name (u "oidcmsg.oidc") (u "Message") = u "oidcmsg.oidc.Message" /\
  qualified_name (u "oidcmsg.oauth2") (u "Message") <> qualified_name (u "oidcmsg.oidc") (u "Message").
Proof. split; [reflexivity|discriminate]. Qed.

(** A name that cannot be split, or whose module is not found, gives the error of that step. *)
Theorem C161_no_module : forall M A (imp : ustr -> res M) (get : M -> ustr -> res A) name e,
  (modsplit name = Err e -> importer imp get name = Err e) /\ (forall p, modsplit name = Ok p -> imp (fst p) = Err e -> importer imp get name = Err e).
Proof. exact no_module. Qed.
Print Assumptions C161_no_module.

Example C161_case_no_module : modsplit (u "Message") = Err EValueError /\ modsplit (u "oidc.Message") = Ok (u "oidc", u "Message") /\
  ns_modules (u "oidc") = Err EOSError.
Proof. repeat split; vm_compute; reflexivity. Qed.

(** C162: what a serializer for messages writes of the claims of a token, as JSON or as a dictionary and at every level,
    jwt_deser reads as the same claims, also when it is told "urlencoded". *)
Theorem C162_token_read : forall d ser f g lev, let c := C_oidc_JsonWebToken in
  writer c ser -> nested_format f g -> content canon (cd_param (cdef c)) d -> covers_defaults (cdef c) d ->
  exists v d', ser (VMsg c d) f lev = Ok v /\ jwt_deser v f = Ok (VMsg c d') /\ jwt_deser v (u "urlencoded") = Ok (VMsg c d') /\ forall x, dget d' x = dget d x.
Proof. exact token_read. Qed.
Print Assumptions C162_token_read.

Example C162_case : let c := C_oidc_JsonWebToken in
  content canon (cd_param (cdef c)) ns_token /\ covers_defaults (cdef c) ns_token /\
  (do v <- msg_ser (VMsg c ns_token) (u "json") 0 ; jwt_deser v (u "urlencoded")) = Ok (VMsg c ns_token) /\
  (do v <- msg_ser (VMsg c ns_token) (u "dict") 1 ; jwt_deser v (u "dict")) = Ok (VMsg c ns_token).
Proof. cbv zeta. split; [exact ns_token_canon|]. split; [intros k []|]. split; vm_compute; reflexivity. Qed.

(** A text is read as JSON under the names "json" and "urlencoded": query texts are never decoded.  Under the name "dict"
    every text is an AttributeError. *)
Theorem C162_texts : forall t, (forall f, In f [u "json"; u "urlencoded"] -> jwt_deser (VStr t) f = deser_cls the_lib C_oidc_JsonWebToken (VStr t) Fjson) /\
  jwt_deser (VStr t) (u "dict") = Err EAttributeError.
Proof. exact (fun t => conj (text_as_json t) (token_text_as_dict t)). Qed.
Print Assumptions C162_texts.

Example C162_case_texts : jwt_deser (VStr (u "{""iss"": ""a""}")) (u "urlencoded") = Ok (VMsg C_oidc_JsonWebToken [(u "iss", VStr (u "a"))]) /\
  jwt_deser (VStr (u "iss=a")) (u "urlencoded") = Err EJSONDecodeError /\ deser_cls the_lib C_oidc_JsonWebToken (VStr (u "iss=a")) Furl = Ok (VMsg C_oidc_JsonWebToken [(u "iss", VStr (u "a"))]).
Proof. repeat split; vm_compute; reflexivity. Qed.

(** Any other value than a text is written as JSON and read from it, whichever of the three formats is named. *)
Theorem C162_other_values : forall v, (forall t, v <> VStr t) -> forall f, In f [u "json"; u "dict"; u "urlencoded"] ->
  jwt_deser v f = (do t <- json_dumps v ; deser_cls the_lib C_oidc_JsonWebToken (VStr t) Fjson).
Proof. exact read_as_json. Qed.
Print Assumptions C162_other_values.

Example C162_case_other_values : jwt_deser (VDict [(u "exp", VInt 3)]) (u "dict") = Ok (VMsg C_oidc_JsonWebToken [(u "exp", VInt 3)]) /\
  jwt_deser (VMsg C_oidc_JsonWebToken []) (u "dict") = Err ETypeError /\ jwt_deser (VList []) (u "json") = Err EAttributeError.
Proof. repeat split; vm_compute; reflexivity. Qed.

(** Under the name of any other format nothing is read. *)
Theorem C162_formats : forall v f, ~ In f [u "urlencoded"; u "dict"; u "json"] ->
  jwt_deser v f = Err (if umem f [u "jwt"; u "jwe"] then ETypeError else EFormatError).
Proof. exact token_formats. Qed.
Print Assumptions C162_formats.

Example C162_case_formats : jwt_deser (VDict []) (u "xml") = Err EFormatError /\ jwt_deser (VStr (u "a.b.c")) (u "jwt") = Err ETypeError.
Proof. split; vm_compute; reflexivity. Qed.

(** idtoken_deser reads no value at all: it hands no key jar to from_jwt. *)
Theorem C162_id_token : forall v f, idtoken_deser v f = Err ETypeError.
Proof. exact id_token_unread. Qed.
Print Assumptions C162_id_token.

Example C162_case_id_token : idtoken_deser (VStr (u "eyJhbGciOiJub25lIn0.e30.")) (u "urlencoded") = Err ETypeError.
Proof. vm_compute. reflexivity. Qed.
