(** C164: the exceptions of verify() of an authorization request that carries a request object. *)
From Coq Require Import List NArith ZArith QArith Bool String.
From Verif Require Import Base.Ustr Model.Cls Model.Value Model.Pspec Model.Tables Model.Message Model.Env Model.Verify
  Spec.ErrorSpec Spec.TokenErrorSpec Spec.RequestErrorSpec Proofs.Samples Proofs.RequestErrorLemmas Proofs.RequestErrorSamples.
Import ListNotations.
Open Scope list_scope.
Open Scope N_scope.

(** C164: verify() of an authorization request of OpenID Connect that came as a query, with a request object that can be read,
    raises exceptions of the library, ValueErrors and what the crypto library raises only, ... *)
Theorem C164_query : forall E K hdr c q d t d' e, subclass c C_oidc_AuthorizationRequest = true -> kw_jar K = true ->
  from_urlencoded (cdef c) (cd_default (cdef c)) q = (d, Ok tt) -> dget d (u "request") = Some (VStr t) -> request_readable E t ->
  verify E K hdr c d = (d', Err e) -> anticipated e \/ from_crypto E e \/ e = OutOfModel.
Proof. exact c164_query. Qed.
Print Assumptions C164_query.

(** ... and so for one that came as JSON, ... *)
Theorem C164_json : forall E K hdr c l d t d' e, subclass c C_oidc_AuthorizationRequest = true -> kw_jar K = true ->
  json_only (VDict l) = true -> from_dict (cdef c) (cd_default (cdef c)) (VDict l) = (d, Ok tt) -> dget d (u "request") = Some (VStr t) -> request_readable E t ->
  verify E K hdr c d = (d', Err e) -> anticipated e \/ from_crypto E e \/ e = OutOfModel.
Proof. exact c164_json. Qed.
Print Assumptions C164_json.

(** ... and for JWT secured and pushed authorization requests with any content. *)
Theorem C164_secured : forall E K hdr c d t d' e, In c [C_oauth2_JWTSecuredAuthorizationRequest; C_oauth2_PushedAuthorizationRequest] -> kw_jar K = true ->
  dget d (u "request") = Some (VStr t) -> readable E t -> verify E K hdr c d = (d', Err e) -> anticipated e \/ from_crypto E e \/ e = OutOfModel.
Proof. exact c164_secured. Qed.
Print Assumptions C164_secured.

(** Every condition counts: the key jar, the algorithm in the header, claims that are an object, and both for a hint inside
    of the request object. *)
Theorem C164_conditions :
  re_outcome {| kw := []; kw_jar := false |} C_oidc_AuthorizationRequest "ro.good" = Err ETypeError /\
  re_outcome {| kw := []; kw_jar := false |} C_oauth2_PushedAuthorizationRequest "ro.good" = Err ETypeError /\
  map (re_outcome (with_jar []) C_oidc_AuthorizationRequest) ["ro.noalg"; "ro.list"; "ro.oddhint"; "ro.alghint"]%string =
    [Err EKeyError; Err EAttributeError; Err EAttributeError; Err EKeyError] /\
  map (re_outcome (with_jar []) C_oauth2_JWTSecuredAuthorizationRequest) ["ro.noalg"; "ro.list"; "ro.oddhint"; "ro.alghint"]%string =
    [Err EKeyError; Err EAttributeError; Ok true; Ok true].
Proof. exact re_conditions. Qed.
Print Assumptions C164_conditions.

(** request objects that can be read, one of them encrypted, and what verify() makes of them *)
Example C164_case : (forall t, In t in_order -> request_readable re_env (u t)) /\
  (forall c t, In c [C_oidc_AuthorizationRequest; C_oauth2_JWTSecuredAuthorizationRequest; C_oauth2_PushedAuthorizationRequest] -> In t in_order ->
     from_urlencoded (cdef c) (cd_default (cdef c)) (re_query t) = (re_read c t, Ok tt) /\ dget (re_read c t) (u "request") = Some (VStr (u t))) /\
  in_order = ["ro.good"; "ro.hint"; "ro.odd"; "ro.object"; "ro.claims"; "ro.closed"; "ro.forged"; "enc(ro.good)"]%string /\
  map (re_outcome (with_jar []) C_oidc_AuthorizationRequest) in_order =
    [Ok true; Ok true; Err EDecodeError; Err EMissingRequiredAttribute; Err EMessageException; Err EMissingRequiredValue; Err ECrypto; Ok true] /\
  map (re_outcome (with_jar []) C_oauth2_JWTSecuredAuthorizationRequest) in_order =
    [Ok true; Ok true; Err EDecodeError; Ok true; Ok true; Ok true; Err ECrypto; Ok true] /\
  (* what cannot be decrypted *)
  re_outcome (with_jar []) C_oidc_AuthorizationRequest "enc()" = Err ECrypto /\ from_crypto re_env ECrypto.
Proof.
  split; [exact re_readable|]. split; [exact re_requests|]. split; [reflexivity|]. split; [vm_compute; reflexivity|]. split; [vm_compute; reflexivity|].
  split; [vm_compute; reflexivity|]. right. exists 0%nat, (u "enc()"), []. vm_compute. reflexivity.
Qed.
