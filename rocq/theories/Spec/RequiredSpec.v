(** Which parameters the OAuth2 and OpenID Connect specifications require in which message. *)
From Coq Require Import List NArith ZArith Bool String.
From Verif Require Import Base.Ustr Model.Cls Model.Value Spec.VerifySpec Spec.MessageSpec.
Import ListNotations.
Open Scope list_scope.

(** the messages of the library with the parameters marked REQUIRED; requests with a request object
    (C28, C43) and device token requests (C101) are dealt with elsewhere *)
Definition spec_required : list (cls * list ustr) := [
  (** RFC 6749 4.1.1, 4.1.2, 4.1.3, 5.1, 4.4.2, 6 *)
  (C_oauth2_AuthorizationRequest, [u "response_type"; u "client_id"]);
  (C_oauth2_AuthorizationResponse, [u "code"]);
  (C_oauth2_AccessTokenRequest, [u "grant_type"; u "code"]);
  (C_oauth2_AccessTokenResponse, [u "access_token"; u "token_type"]);
  (C_oauth2_CCAccessTokenRequest, [u "grant_type"]);
  (C_oauth2_RefreshAccessTokenRequest, [u "grant_type"; u "refresh_token"]);
  (** RFC 8414 2 *)
  (C_oauth2_ASConfigurationResponse, [u "issuer"; u "response_types_supported"]);
  (** RFC 7662 2.1, 2.2 *)
  (C_oauth2_TokenIntrospectionRequest, [u "token"]);
  (C_oauth2_TokenIntrospectionResponse, [u "active"]);
  (** RFC 8693 2.1, 2.2.1 *)
  (C_oauth2_TokenExchangeRequest, [u "grant_type"; u "subject_token"; u "subject_token_type"]);
  (C_oauth2_TokenExchangeResponse, [u "access_token"; u "issued_token_type"; u "token_type"]);
  (** RFC 8628 3.1, 3.2 *)
  (C_device_AuthorizationRequest, [u "client_id"]);
  (C_device_AuthorizationResponse, [u "device_code"; u "user_code"; u "verification_uri"; u "expires_in"]);
  (** OpenID Connect Core 2, 3.1.3.1, 3.1.3.3, 5.3.2, 9, 12.1 *)
  (C_oidc_IdToken, [u "iss"; u "sub"; u "aud"; u "exp"; u "iat"]);
  (C_oidc_AccessTokenRequest, [u "grant_type"; u "code"; u "redirect_uri"]);
  (C_oidc_AccessTokenResponse, [u "access_token"; u "token_type"]);
  (C_oidc_OpenIDSchema, [u "sub"]);
  (C_oidc_AuthnToken, [u "iss"; u "sub"; u "aud"; u "jti"; u "exp"]);
  (C_oidc_RefreshAccessTokenRequest, [u "grant_type"; u "refresh_token"]);
  (** OpenID Connect Registration 2, 3.2; Discovery 2, 3 *)
  (C_oidc_RegistrationRequest, [u "redirect_uris"]);
  (C_oidc_RegistrationResponse, [u "client_id"]);
  (C_oidc_DiscoveryRequest, [u "resource"; u "rel"]);
  (C_oidc_ProviderConfigurationResponse, [u "issuer"; u "authorization_endpoint"; u "jwks_uri";
     u "response_types_supported"; u "subject_types_supported"; u "id_token_signing_alg_values_supported"]);
  (** RFC 8288: a link has a relation type *)
  (C_oidc_Link, [u "rel"]);
  (** OpenID Connect Back-Channel Logout 2.4, 2.5 *)
  (C_session_LogoutToken, [u "iss"; u "aud"; u "iat"; u "jti"; u "events"]);
  (C_session_BackChannelLogoutRequest, [u "logout_token"]);
  (** RFC 8417 2.2 *)
  (C_oauth2_SecurityEventToken, [u "iss"; u "iat"; u "jti"]) ].

(** ... and further ones *)
Definition spec_required_more : list (cls * ustr) := [
  (** RFC 6749 4.3.2, 4.1.2.1, 5.2 *)
  (C_oauth2_ROPCAccessTokenRequest, u "username"); (C_oauth2_ROPCAccessTokenRequest, u "password");
  (C_oauth2_AuthorizationErrorResponse, u "error"); (C_oauth2_TokenErrorResponse, u "error");
  (** RFC 8417 2.2 *)
  (C_oauth2_SecurityEventToken, u "events");
  (** OpenID Connect Core 3.1.3.3 *)
  (C_oidc_AccessTokenResponse, u "id_token") ].

(** the message has the parameter, and not with an empty value (except active, a boolean) *)
Definition has_parameter (d : dict value) (a : ustr) : Prop :=
  exists v, dget d a = Some v /\ (a <> u "active" -> ~ empty_value v).
