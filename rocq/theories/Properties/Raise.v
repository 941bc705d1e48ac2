(** C129: the exceptions of verify(). *)
From Coq Require Import List NArith ZArith QArith Bool String.
From Verif Require Import Base.Ustr Model.Cls Model.Value Model.Pspec Model.Tables Model.Message Model.Env Model.Verify
  Spec.ErrorSpec Spec.RaiseSpec Proofs.Samples Proofs.RaiseLemmas Proofs.RaiseSamples.
Import ListNotations.
Open Scope list_scope.
Open Scope N_scope.

(** C129: verify() of a message without tokens, whose values have the forms that its class looks for, raises exceptions of
    the library and ValueErrors only ... *)
Theorem C129_verify_partial : forall E K hdr c d d' e, assurance c = false -> usual_args K -> as_expected c d -> openid_supported c d -> tokenless d ->
  verify E K hdr c d = (d', Err e) -> anticipated e \/ e = OutOfModel.
Proof. exact c129. Qed.
Print Assumptions C129_verify_partial.

(** ... and what somebody sends as a query string has these forms. *)
Theorem C129_query_partial : forall E K hdr c q d d' e, assurance c = false -> comes_in_token c = false -> usual_args K ->
  from_urlencoded (cdef c) (cd_default (cdef c)) q = (d, Ok tt) -> openid_supported c d -> tokenless d ->
  verify E K hdr c d = (d', Err e) -> anticipated e \/ e = OutOfModel.
Proof. exact c129_query. Qed.
Print Assumptions C129_query_partial.

(** JSON documents with null, other types of undeclared claims, a provider without the scope openid, tokens without
    the algorithm and lists where objects are expected do raise other exceptions. *)
Theorem C129_refuted : ~ anticipated ETypeError /\ ~ anticipated EKeyError /\ ~ anticipated EAttributeError /\
  read_verify C_oidc_AccessTokenResponse "{""access_token"":""a"",""token_type"":""Bearer"",""error_description"":null}" = Some (Err ETypeError) /\
  read_verify C_oidc_OpenIDSchema "{""sub"":""diana"",""birthdate"":null}" = Some (Err ETypeError) /\
  read_verify C_oidc_JsonWebToken "{""exp"":null}" = Some (Err ETypeError) /\
  read_verify C_oidc_AuthnToken
    "{""iss"":""rp"",""sub"":""rp"",""aud"":[""https://op""],""jti"":""1"",""exp"":2000,""nbf"":""900""}" = Some (Err ETypeError) /\
  read_verify C_oidc_ProviderConfigurationResponse
    "{""issuer"":""https://op"",""authorization_endpoint"":""https://op/a"",""jwks_uri"":""https://op/j"",""response_types_supported"":[""code""],""subject_types_supported"":[""public""],""id_token_signing_alg_values_supported"":[""RS256""],""scopes_supported"":[""email""]}"
    = Some (Err ETypeError) /\
  read_verify C_oidc_AccessTokenResponse "{""access_token"":""a"",""token_type"":""Bearer"",""id_token"":""no.alg""}" = Some (Err EKeyError) /\
  read_verify C_oidc_AuthorizationRequest
    "{""response_type"":""code"",""client_id"":""rp"",""scope"":""openid"",""redirect_uri"":""https://rp/cb"",""request"":""[]""}" = Some (Err EAttributeError) /\
  read_verify C_session_LogoutToken
    "{""iss"":""https://op"",""sub"":""diana"",""aud"":[""rp""],""iat"":900,""jti"":""1"",""events"":""[1]""}" = Some (Err EAttributeError).
Proof. exact raise_refuted. Qed.
Print Assumptions C129_refuted.

Example C129_case :
  assurance C_oidc_AuthorizationRequest = false /\ comes_in_token C_oidc_AuthorizationRequest = false /\ usual_args (with_jar [(u "nonce", VStr (u "n"))]) /\
  openid_supported C_oidc_AuthorizationRequest ra_request /\ tokenless ra_request /\
  from_urlencoded (cdef C_oidc_AuthorizationRequest) (cd_default (cdef C_oidc_AuthorizationRequest))
    (u "response_type=code&client_id=rp&scope=openid&redirect_uri=https://rp/cb&prompt=none+login&exp=x") = (ra_request, Ok tt) /\
  as_expected C_oidc_AuthorizationRequest ra_request /\
  snd (verify sample (with_jar [(u "nonce", VStr (u "n"))]) None C_oidc_AuthorizationRequest ra_request) = Err EInvalidRequest.
Proof.
  split; [reflexivity|]. split; [reflexivity|]. split; [exact ra_usual|]. split; [intros v H; vm_compute in H; discriminate|].
  split; [intros k H; cbn [In] in H; destruct H as [<-|[<-|[<-|[<-|[]]]]]; reflexivity|]. split; [vm_compute; reflexivity|].
  split; [exact ra_expected|]. vm_compute. reflexivity.
Qed.
