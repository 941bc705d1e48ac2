(** C167: what a caller has to catch. *)
From Coq Require Import List NArith ZArith Bool String.
From Verif Require Import Base.Ustr Model.Cls Model.Value Model.Pspec Model.Tables Model.Exceptions Model.Json Model.Message Model.Env Model.Verify
  Spec.MessageSpec Spec.VerifySpec Spec.ErrorSpec Spec.RaiseSpec Spec.TokenErrorSpec Spec.RequestErrorSpec Spec.ExceptionSpec
  Proofs.Samples Proofs.RaiseSamples Proofs.ExceptionLemmas.
Import ListNotations.
Open Scope list_scope.
Open Scope N_scope.

(** C167: an except clause catches the instances of its classes and of the classes derived from them. *)
Theorem C167_catches : forall names e, catches names e = true <-> instance e names.
Proof. exact catches_exact. Qed.
Print Assumptions C167_catches.

(** All but four classes of exceptions for messages are derived from OidcMsgError; ... *)
Theorem C167_library_partial : forall c b, In (c, b) (exception_py ++ oidc_exceptions) ->
  ~ In c [u "UnSupported"; u "InvalidRedirectUri"; u "MissingPage"; u "ModificationForbidden"] -> derived c (u "OidcMsgError").
Proof. exact library_classes. Qed.
Print Assumptions C167_library_partial.

(** ... these four are not. *)
Theorem C167_library_refuted : forall c, In c [u "UnSupported"; u "InvalidRedirectUri"; u "MissingPage"; u "ModificationForbidden"] ->
  In (c, u "Exception") exception_py /\ ~ derived c (u "OidcMsgError").
Proof. exact library_apart. Qed.
Print Assumptions C167_library_refuted.

(** A caller who catches OidcMsgError and ValueError catches what verify() raises of a message without tokens that has values
    of the expected forms, ... *)
Theorem C167_verify : forall E K hdr c d d' e, assurance c = false -> usual_args K -> as_expected c d -> openid_supported c d -> tokenless d ->
  verify E K hdr c d = (d', Err e) -> instance e [u "OidcMsgError"; u "ValueError"] \/ e = OutOfModel.
Proof. exact c167_verify. Qed.
Print Assumptions C167_verify.

(** ... of a request with a request object that can be read, beside the exceptions of the crypto library and the key jar, ... *)
Theorem C167_request : forall E K hdr c q d t d' e, subclass c C_oidc_AuthorizationRequest = true -> kw_jar K = true ->
  from_urlencoded (cdef c) (cd_default (cdef c)) q = (d, Ok tt) -> dget d (u "request") = Some (VStr t) -> request_readable E t ->
  verify E K hdr c d = (d', Err e) -> instance e [u "OidcMsgError"; u "ValueError"] \/ from_crypto E e \/ e = OutOfModel.
Proof. exact c167_request. Qed.
Print Assumptions C167_request.

(** ... and what from_dict raises of any dictionary. *)
Theorem C167_read : forall c d l d' e, from_dict (cdef c) d (VDict l) = (d', Err e) -> instance e [u "OidcMsgError"; u "ValueError"] \/ e = OutOfModel.
Proof. exact c167_read. Qed.
Print Assumptions C167_read.

(** What Message.verify() itself raises is a MessageException. *)
Theorem C167_tables : forall c d e, verify_base (cdef c) d = Err e -> instance e [u "MessageException"].
Proof. exact base_message. Qed.
Print Assumptions C167_tables.

(** a request that is refused with InvalidRequest, which is an OidcMsgError and no MessageException; others that are none *)
Example C167_case : snd (verify sample (with_jar [(u "nonce", VStr (u "n"))]) None C_oidc_AuthorizationRequest ra_request) = Err EInvalidRequest /\
  catches [u "OidcMsgError"] EInvalidRequest = true /\ catches [u "MessageException"] EInvalidRequest = false /\
  catches [u "VerificationError"] EEXPError = true /\ catches [u "ValueError"] EJSONDecodeError = true /\
  verify_base (cdef C_oauth2_AccessTokenRequest) [] = Err EMissingRequiredAttribute /\
  snd (from_dict (cdef C_oauth2_AccessTokenResponse) [] (VDict [(u "expires_in", VStr (u "soon"))])) = Err EValueError /\
  ~ instance EVerificationError [u "MessageException"] /\ ~ instance EIssuerMismatch [u "MessageException"; u "VerificationError"; u "ValueError"] /\
  ~ instance ETypeError [u "OidcMsgError"; u "ValueError"].
Proof. do 7 (split; [vm_compute; reflexivity|]). exact not_message. Qed.
