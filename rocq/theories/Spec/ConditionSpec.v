(** C148: parameters that must come together, or must not; C149: what a caller expects of a token.  From the specifications, independent
    of the model. *)
From Coq Require Import List NArith ZArith Bool String.
From Verif Require Import Base.Ustr Model.Cls Model.Value Model.Message Spec.VerifySpec.
Import ListNotations.
Open Scope list_scope.
Open Scope N_scope.

Definition names (d : dict value) : list ustr := map fst d.

(** [(c, a, b)]: a message of class [c] with parameter [a] has parameter [b].  The rules that the library enforces: *)
Definition together : list (cls * ustr * ustr) :=
  [ (* OpenID Connect Dynamic Client Registration 2: when an enc is included, the alg must be; when an alg is, the default enc applies *)
    (C_oidc_RegistrationRequest, u "request_object_encryption_enc", u "request_object_encryption_alg");
    (C_oidc_RegistrationRequest, u "request_object_encryption_alg", u "request_object_encryption_enc");
    (C_oidc_RegistrationRequest, u "id_token_encrypted_response_enc", u "id_token_encrypted_response_alg");
    (C_oidc_RegistrationRequest, u "id_token_encrypted_response_alg", u "id_token_encrypted_response_enc");
    (C_oidc_RegistrationRequest, u "userinfo_encrypted_response_enc", u "userinfo_encrypted_response_alg");
    (C_oidc_RegistrationRequest, u "userinfo_encrypted_response_alg", u "userinfo_encrypted_response_enc");
    (* ibid. 3.2: both the Client Configuration Endpoint and the Registration Access Token or neither of them *)
    (C_oidc_RegistrationResponse, u "registration_client_uri", u "registration_access_token");
    (C_oidc_RegistrationResponse, u "registration_access_token", u "registration_client_uri");
    (* OpenID Connect Session Management (draft) 5: an id_token_hint with post_logout_redirect_uri *)
    (C_session_EndSessionRequest, u "post_logout_redirect_uri", u "id_token_hint") ].

(** ... and those that it does not. *)
Definition together_not_enforced : list (cls * ustr * ustr) :=
  [ (* RFC 8693 2.1: actor_token_type is REQUIRED when the actor_token parameter is present but MUST NOT be included otherwise *)
    (C_oauth2_TokenExchangeRequest, u "actor_token", u "actor_token_type");
    (C_oauth2_TokenExchangeRequest, u "actor_token_type", u "actor_token");
    (* RFC 7521 4.2: client_assertion and client_assertion_type *)
    (C_oidc_AccessTokenRequest, u "client_assertion", u "client_assertion_type");
    (C_oidc_AccessTokenRequest, u "client_assertion_type", u "client_assertion");
    (C_oauth2_TokenIntrospectionRequest, u "client_assertion", u "client_assertion_type");
    (C_oauth2_TokenIntrospectionRequest, u "client_assertion_type", u "client_assertion");
    (* OpenID Connect Dynamic Client Registration 3.2: client_secret_expires_at is REQUIRED if client_secret is issued; 2 for the enc *)
    (C_oidc_RegistrationResponse, u "client_secret", u "client_secret_expires_at");
    (C_oidc_RegistrationResponse, u "id_token_encrypted_response_enc", u "id_token_encrypted_response_alg");
    (* RFC 6749 4.2.2, OpenID Connect Core 3.2.2.5: token_type with an access_token *)
    (C_oidc_AuthorizationResponse, u "access_token", u "token_type");
    (* RFC 6749 4.1.2.1: a description belongs to an error *)
    (C_oauth2_AuthorizationErrorResponse, u "error_description", u "error");
    (* OpenID Connect Core 5.6.2: every name in _claim_names refers to a member of _claim_sources *)
    (C_oidc_OpenIDSchema, u "_claim_names", u "_claim_sources") ].

(** OpenID Connect Dynamic Client Registration 2: jwks_uri and jwks MUST NOT be used together; RFC 9101 5: one of request and
    request_uri; RFC 6749 4.1.2.1: a response is an error or it is none *)
Definition apart_not_enforced : list (cls * ustr * ustr) :=
  [ (C_oidc_RegistrationRequest, u "jwks", u "jwks_uri");
    (C_oauth2_JWTSecuredAuthorizationRequest, u "request", u "request_uri");
    (C_oidc_AuthorizationRequest, u "request", u "request_uri");
    (C_oauth2_AuthorizationResponse, u "code", u "error");
    (C_oauth2_AccessTokenResponse, u "access_token", u "error") ].

(** [(c, arg, k)]: the caller of verify() of a [c] says with the argument [arg] what the parameter [k] has to be *)
Definition expects : list (cls * ustr * ustr) :=
  [ (C_oidc_IdToken, u "iss", u "iss"); (C_oidc_IdToken, u "client_id", u "aud");
    (C_oidc_AuthnToken, u "iss", u "iss"); (C_oidc_AuthnToken, u "aud", u "aud");
    (C_session_LogoutToken, u "iss", u "iss"); (C_session_LogoutToken, u "aud", u "aud") ].
Definition expects_in_vain : list (cls * ustr * ustr) :=
  [ (C_oidc_IdToken, u "nonce", u "nonce");
    (C_oidc_JsonWebToken, u "iss", u "iss"); (C_oidc_JsonWebToken, u "aud", u "aud");
    (* RFC 9207 2.4: clients that expect an iss reject responses without *)
    (C_oauth2_AuthorizationResponse, u "iss", u "iss"); (C_oauth2_AuthorizationResponse, u "client_id", u "client_id");
    (C_oidc_AuthorizationResponse, u "iss", u "iss"); (C_oidc_AuthorizationResponse, u "client_id", u "client_id") ].
(** the value [v] of the parameter [k] is what the caller expects: the audience includes it, other parameters are it *)
Definition as_expected (k : ustr) (v : value) (x : ustr) : Prop :=
  if ueqb k (u "aud") then contains v (VStr x) else v = VStr x.
