(** What the specifications of OAuth2 and OpenID Connect say about the parameters of their messages: types,
    values, defaults.  Transcribed from the specifications, not from the library. *)
From Coq Require Import List NArith ZArith Bool String.
From Verif Require Import Base.Ustr Model.Cls Model.Value Spec.JsonSpec Spec.MessageSpec Spec.CodecSpec Spec.RoundTripSpec Spec.WireSpec Spec.RequiredSpec.
Import ListNotations.
Open Scope list_scope.
Open Scope N_scope.

(** ** Types *)
Inductive ptype :=
| PText      (* a text *)
| PToken     (* a JSON Web Token *)
| PInt       (* a number of seconds *)
| PBool
| PTexts     (* an array of texts *)
| PWords     (* a text of words *)
| PAudience  (* a text or an array of texts, RFC 7519 4.1.3 *)
| PObject    (* an object *)
| PAddress.  (* OpenID Connect Core 5.1.1 *)

(** members of an address, OpenID Connect Core 5.1.1 *)
Definition address_members : list ustr :=
  [u "formatted"; u "street_address"; u "locality"; u "region"; u "postal_code"; u "country"].

(** [spec_value p v w]: the JSON value [v] has the type [p] and stands for [w] in a message *)
Inductive spec_value : ptype -> value -> value -> Prop :=
| SvText : forall t, scalars t = true -> t <> [] -> spec_value PText (VStr t) (VStr t)
| SvToken : forall t, scalars t = true -> t <> [] -> spec_value PToken (VStr t) (VStr t)
| SvInt : forall z, spec_value PInt (VInt z) (VInt z)
| SvBool : forall b, spec_value PBool (VBool b) (VBool b)
| SvTexts : forall l, texts l -> l <> [] -> l <> [[]] -> spec_value PTexts (VList (map VStr l)) (VList (map VStr l))
| SvWords : forall l, texts l -> blank_free l -> l <> [] -> l <> [[]] -> spec_value PWords (VStr (words l)) (VList (map VStr l))
| SvOne : forall t, scalars t = true -> t <> [] -> ~ In 32 t -> spec_value PAudience (VStr t) (VList [VStr t])
| SvMany : forall l, texts l -> l <> [] -> l <> [[]] -> spec_value PAudience (VList (map VStr l)) (VList (map VStr l))
| SvObject : forall d, json_value (VDict d) -> spec_value PObject (VDict d) (VDict d)
| SvAddress : forall l : list (ustr * ustr), NoDup (map fst l) -> incl (map fst l) address_members ->
    texts (map snd l) -> ~ In [] (map snd l) ->
    spec_value PAddress (VDict (map (fun kv => (fst kv, VStr (snd kv))) l))
      (VMsg C_oidc_AddressClaim (map (fun kv => (fst kv, VStr (snd kv))) l)).

(** what a message has for a parameter of a type, whatever it was read from; null is read as null *)
Definition typed_value (p : ptype) (v : value) : Prop :=
  match p with
  | PText => exists t, v = VStr t
  | PInt => exists z, v = VInt z
  | PBool => exists b, v = VBool b
  | PTexts | PWords | PAudience => exists l, v = VList (map VStr l)
  | PToken | PObject | PAddress => True
  end.

Definition all (p : ptype) (l : list ustr) : list (ustr * ptype) := map (fun k => (k, p)) l.

(** RFC 6749 4.1.2.1, 5.2 *)
Definition error_types := all PText [u "error"; u "error_description"; u "error_uri"].
(** RFC 6749 4.1.1 *)
Definition request_types := all PText [u "client_id"; u "redirect_uri"; u "state"] ++ all PWords [u "response_type"; u "scope"].
(** OpenID Connect Core 3.1.2.1, 5.2, 5.5, 6, 7.2.1; OAuth 2.0 Multiple Response Types 2.1 *)
Definition oidc_request_types := request_types ++
  all PText [u "nonce"; u "display"; u "id_token_hint"; u "login_hint"; u "request"; u "request_uri"; u "response_mode"] ++
  all PWords [u "prompt"; u "ui_locales"; u "claims_locales"; u "acr_values"] ++
  [(u "max_age", PInt); (u "registration", PObject)].
(** RFC 6749 5.1 *)
Definition token_types := all PText [u "access_token"; u "token_type"; u "refresh_token"] ++ [(u "expires_in", PInt); (u "scope", PWords)].
(** OpenID Connect Core 5.1 *)
Definition userinfo_types :=
  all PText [u "sub"; u "name"; u "given_name"; u "family_name"; u "middle_name"; u "nickname"; u "preferred_username";
    u "profile"; u "picture"; u "website"; u "email"; u "gender"; u "birthdate"; u "zoneinfo"; u "locale"; u "phone_number"] ++
  all PBool [u "email_verified"; u "phone_number_verified"] ++ [(u "updated_at", PInt); (u "address", PAddress)].
(** RFC 7519 4.1 *)
Definition jwt_types := all PText [u "iss"; u "sub"; u "jti"] ++ all PInt [u "exp"; u "nbf"; u "iat"] ++ [(u "aud", PAudience)].
(** OpenID Connect Dynamic Client Registration 2; Session Management, RP-Initiated, Front- and Back-Channel Logout *)
Definition client_types :=
  all PTexts [u "redirect_uris"; u "response_types"; u "grant_types"; u "contacts"; u "default_acr_values"; u "request_uris";
    u "post_logout_redirect_uris"] ++
  all PText [u "application_type"; u "client_name"; u "logo_uri"; u "client_uri"; u "policy_uri"; u "tos_uri"; u "jwks_uri";
    u "sector_identifier_uri"; u "subject_type"; u "id_token_signed_response_alg"; u "id_token_encrypted_response_alg";
    u "id_token_encrypted_response_enc"; u "userinfo_signed_response_alg"; u "userinfo_encrypted_response_alg";
    u "userinfo_encrypted_response_enc"; u "request_object_signing_alg"; u "request_object_encryption_alg";
    u "request_object_encryption_enc"; u "token_endpoint_auth_method"; u "token_endpoint_auth_signing_alg";
    u "initiate_login_uri"; u "frontchannel_logout_uri"; u "backchannel_logout_uri"] ++
  [(u "jwks", PObject); (u "default_max_age", PInt); (u "require_auth_time", PBool); (u "frontchannel_logout_session_required", PBool)].
(** RFC 8414 2 *)
Definition server_types :=
  all PText [u "issuer"; u "authorization_endpoint"; u "token_endpoint"; u "jwks_uri"; u "registration_endpoint";
    u "service_documentation"; u "op_policy_uri"; u "op_tos_uri"] ++
  all PTexts [u "scopes_supported"; u "response_types_supported"; u "response_modes_supported"; u "grant_types_supported";
    u "token_endpoint_auth_methods_supported"; u "token_endpoint_auth_signing_alg_values_supported"; u "ui_locales_supported"].
(** OpenID Connect Discovery 3; Session Management 3.3, RP-Initiated Logout 2.1, Front-Channel Logout 3, Back-Channel Logout 2.1 *)
Definition provider_types := server_types ++
  all PText [u "userinfo_endpoint"; u "check_session_iframe"; u "end_session_endpoint"] ++
  all PTexts [u "acr_values_supported"; u "subject_types_supported"; u "id_token_signing_alg_values_supported";
    u "id_token_encryption_alg_values_supported"; u "id_token_encryption_enc_values_supported";
    u "userinfo_signing_alg_values_supported"; u "userinfo_encryption_alg_values_supported";
    u "userinfo_encryption_enc_values_supported"; u "request_object_signing_alg_values_supported";
    u "request_object_encryption_alg_values_supported"; u "request_object_encryption_enc_values_supported";
    u "display_values_supported"; u "claim_types_supported"; u "claims_supported"; u "claims_locales_supported"] ++
  all PBool [u "claims_parameter_supported"; u "request_parameter_supported"; u "request_uri_parameter_supported";
    u "require_request_uri_registration"; u "frontchannel_logout_supported"; u "frontchannel_logout_session_supported";
    u "backchannel_logout_supported"; u "backchannel_logout_session_supported"].

(** the parameters of the messages *)
Definition spec_types : list (cls * list (ustr * ptype)) := [
  (** RFC 6749 4.1.1 - 4.1.4, 4.4.2, 6; RFC 9207 2 *)
  (C_oauth2_AuthorizationRequest, request_types);
  (C_oauth2_AuthorizationResponse, error_types ++ all PText [u "code"; u "state"; u "iss"]);
  (C_oauth2_AuthorizationErrorResponse, error_types ++ all PText [u "state"]);
  (C_oauth2_TokenErrorResponse, error_types);
  (C_oauth2_AccessTokenRequest, all PText [u "grant_type"; u "code"; u "redirect_uri"; u "client_id"; u "client_secret"]);
  (C_oauth2_AccessTokenResponse, error_types ++ token_types);
  (C_oauth2_ROPCAccessTokenRequest, all PText [u "grant_type"; u "username"; u "password"] ++ [(u "scope", PWords)]);
  (C_oauth2_CCAccessTokenRequest, all PText [u "grant_type"] ++ [(u "scope", PWords)]);
  (C_oauth2_RefreshAccessTokenRequest, all PText [u "grant_type"; u "refresh_token"] ++ [(u "scope", PWords)]);
  (** RFC 8414 2 *)
  (C_oauth2_ASConfigurationResponse, server_types ++ all PText [u "revocation_endpoint"; u "introspection_endpoint"]);
  (** RFC 7662 2.1, 2.2 *)
  (C_oauth2_TokenIntrospectionRequest, all PText [u "token"; u "token_type_hint"]);
  (C_oauth2_TokenIntrospectionResponse, jwt_types ++ all PText [u "client_id"; u "username"; u "token_type"] ++
     [(u "active", PBool); (u "scope", PWords)]);
  (** RFC 8693 2.1, 2.2.1 *)
  (C_oauth2_TokenExchangeRequest, all PText [u "grant_type"; u "requested_token_type"; u "subject_token"; u "subject_token_type";
     u "actor_token"; u "actor_token_type"] ++ [(u "scope", PWords)]);
  (C_oauth2_TokenExchangeResponse, token_types ++ [(u "issued_token_type", PText)]);
  (** RFC 9101 5, RFC 9126 2.1 *)
  (C_oauth2_JWTSecuredAuthorizationRequest, request_types ++ all PText [u "request"; u "request_uri"]);
  (C_oauth2_PushedAuthorizationRequest, request_types ++ all PText [u "request"]);
  (** RFC 8417 2.2 *)
  (C_oauth2_SecurityEventToken, all PText [u "iss"; u "sub"; u "jti"] ++ all PInt [u "exp"; u "iat"; u "toe"] ++
     [(u "aud", PAudience); (u "events", PObject)]);
  (** RFC 8628 3.2 *)
  (C_device_AuthorizationResponse, all PText [u "device_code"; u "user_code"; u "verification_uri"; u "verification_uri_complete"] ++
     all PInt [u "expires_in"; u "interval"]);
  (** OpenID Connect Core 2, 3.1.2.1, 3.1.3.1, 3.1.3.3, 3.2.2.5, 3.3.2.11, 5.1, 5.1.1, 9; Back-Channel Logout 2.1;
      Session Management 3.1 *)
  (C_oidc_AuthorizationRequest, oidc_request_types);
  (C_oidc_OpenIDRequest, oidc_request_types);
  (C_oidc_AuthorizationResponse, error_types ++ all PText [u "code"; u "state"; u "access_token"; u "token_type"; u "session_state"] ++
     [(u "expires_in", PInt); (u "scope", PWords); (u "id_token", PToken)]);
  (C_oidc_AuthorizationErrorResponse, error_types ++ all PText [u "state"]);
  (C_oidc_AccessTokenRequest, all PText [u "grant_type"; u "code"; u "redirect_uri"; u "client_id"; u "client_secret";
     u "client_assertion_type"; u "client_assertion"]);
  (C_oidc_AccessTokenResponse, error_types ++ token_types ++ [(u "id_token", PText)]);
  (C_oidc_RefreshAccessTokenRequest, all PText [u "grant_type"; u "refresh_token"] ++ [(u "scope", PWords)]);
  (C_oidc_IdToken, userinfo_types ++ all PText [u "iss"; u "nonce"; u "acr"; u "azp"; u "at_hash"; u "c_hash"; u "sid"] ++
     all PInt [u "exp"; u "iat"; u "auth_time"] ++ [(u "aud", PAudience); (u "amr", PTexts)]);
  (C_oidc_OpenIDSchema, error_types ++ userinfo_types);
  (C_oidc_AddressClaim, all PText address_members);
  (C_oidc_JsonWebToken, jwt_types);
  (C_oidc_AuthnToken, all PText [u "iss"; u "sub"; u "jti"] ++ all PInt [u "exp"; u "iat"] ++ [(u "aud", PAudience)]);
  (** OpenID Connect Dynamic Client Registration 2, 3.2, 3.3; Discovery 2, 3 *)
  (C_oidc_RegistrationRequest, client_types);
  (C_oidc_RegistrationResponse, client_types ++ all PText [u "client_id"; u "client_secret"; u "registration_access_token";
     u "registration_client_uri"] ++ all PInt [u "client_id_issued_at"; u "client_secret_expires_at"]);
  (C_oidc_ClientRegistrationErrorResponse, error_types);
  (C_oidc_ProviderConfigurationResponse, provider_types);
  (C_oidc_DiscoveryRequest, all PText [u "resource"; u "rel"]);
  (** RFC 7033 4.4 *)
  (C_oidc_Link, all PText [u "rel"; u "type"; u "href"] ++ all PObject [u "titles"; u "properties"]);
  (C_oidc_JRD, [(u "subject", PText); (u "aliases", PTexts); (u "properties", PObject)]);
  (** OpenID Connect RP-Initiated Logout 2, Back-Channel Logout 2.4, 2.5 *)
  (C_session_EndSessionRequest, [(u "id_token_hint", PToken); (u "post_logout_redirect_uri", PText); (u "state", PText)]);
  (C_session_LogoutToken, all PText [u "iss"; u "sub"; u "jti"; u "sid"] ++
     [(u "iat", PInt); (u "aud", PAudience); (u "events", PObject)]);
  (C_session_BackChannelLogoutRequest, [(u "logout_token", PText)]) ].

(** ... and further ones: the key of a self-issued ID Token, OpenID Connect Core 7.4; the nationalities of
    OpenID Connect for Identity Assurance, 4.1, an array *)
Definition spec_types_refused : list (cls * (ustr * ptype)) :=
  [(C_oidc_IdToken, (u "sub_jwk", PObject)); (C_ida_IdentityAssuranceClaims, (u "nationalities", PTexts))].
(** OpenID Connect Back-Channel Logout 2.2; RFC 8417 2.2; RFC 8414 2; OpenID Connect RP-Initiated Logout 2 *)
Definition spec_types_untyped : list (cls * (ustr * ptype)) :=
  [(C_oidc_RegistrationRequest, (u "backchannel_logout_session_required", PBool));
   (C_oauth2_SecurityEventToken, (u "txn", PText));
   (C_oauth2_ASConfigurationResponse, (u "code_challenge_methods_supported", PTexts));
   (C_session_EndSessionRequest, (u "client_id", PText))].

(** a document of parameters of the specification, each with a value of its type *)
Definition spec_document (ps : list (ustr * ptype)) (l : list member) : Prop :=
  NoDup (map name_of l) /\ forall k v w, In (k, v, w) l -> exists p, In (k, p) ps /\ spec_value p v w.

(** ** Values *)
(** the parameters with enumerated values *)
Definition spec_values : list (cls * (ustr * ptype * list ustr)) := [
  (** RFC 6749 4.1.2.1 *)
  (C_oauth2_AuthorizationErrorResponse, (u "error", PText, [u "invalid_request"; u "unauthorized_client"; u "access_denied";
     u "unsupported_response_type"; u "invalid_scope"; u "server_error"; u "temporarily_unavailable"]));
  (** RFC 6749 5.2 *)
  (C_oauth2_TokenErrorResponse, (u "error", PText, [u "invalid_request"; u "invalid_client"; u "invalid_grant"; u "unauthorized_client";
     u "unsupported_grant_type"; u "invalid_scope"]));
  (** RFC 6749 4.4.2, 6 *)
  (C_oauth2_CCAccessTokenRequest, (u "grant_type", PText, [u "client_credentials"]));
  (C_oauth2_RefreshAccessTokenRequest, (u "grant_type", PText, [u "refresh_token"]));
  (C_oidc_RefreshAccessTokenRequest, (u "grant_type", PText, [u "refresh_token"]));
  (** OpenID Connect Core 3.1.2.1 *)
  (C_oidc_AuthorizationRequest, (u "display", PText, [u "page"; u "popup"; u "touch"; u "wap"]));
  (C_oidc_AuthorizationRequest, (u "prompt", PWords, [u "none"; u "login"; u "consent"; u "select_account"]));
  (C_oidc_OpenIDRequest, (u "display", PText, [u "page"; u "popup"; u "touch"; u "wap"]));
  (C_oidc_OpenIDRequest, (u "prompt", PWords, [u "none"; u "login"; u "consent"; u "select_account"]));
  (** OpenID Connect Core 3.1.2.6 *)
  (C_oidc_AuthorizationErrorResponse, (u "error", PText, [u "invalid_request"; u "unauthorized_client"; u "access_denied";
     u "unsupported_response_type"; u "invalid_scope"; u "server_error"; u "temporarily_unavailable";
     u "interaction_required"; u "login_required"; u "consent_required"; u "invalid_request_uri";
     u "invalid_request_object"; u "request_not_supported"; u "request_uri_not_supported"; u "registration_not_supported"]));
  (** OpenID Connect Core 3.1.3.4 *)
  (C_oidc_TokenErrorResponse, (u "error", PText, [u "invalid_request"; u "invalid_client"; u "invalid_grant"; u "unauthorized_client";
     u "unsupported_grant_type"; u "invalid_scope"]));
  (** RFC 6750 3.1 *)
  (C_oidc_UserInfoErrorResponse, (u "error", PText, [u "invalid_request"; u "invalid_token"; u "insufficient_scope"]));
  (** OpenID Connect Core 9, RFC 7523 2.2 *)
  (C_oidc_AccessTokenRequest, (u "client_assertion_type", PText, [u "urn:ietf:params:oauth:client-assertion-type:jwt-bearer"]));
  (C_device_AccessTokenRequest, (u "client_assertion_type", PText, [u "urn:ietf:params:oauth:client-assertion-type:jwt-bearer"]));
  (** OpenID Connect Dynamic Client Registration 2, 3.3 *)
  (C_oidc_RegistrationRequest, (u "application_type", PText, [u "native"; u "web"]));
  (C_oidc_RegistrationRequest, (u "subject_type", PText, [u "pairwise"; u "public"]));
  (C_oidc_ClientRegistrationErrorResponse, (u "error", PText, [u "invalid_redirect_uri"; u "invalid_client_metadata"])) ].
(** ... and further ones: OpenID Connect Core 3.1.2.6; RFC 8628 3.5; RFC 8693 2.2.2; RFC 7591 3.2.2 *)
Definition spec_values_more : list (cls * (ustr * ustr)) :=
  [(C_oidc_AuthorizationErrorResponse, (u "error", u "account_selection_required"));
   (C_oauth2_TokenErrorResponse, (u "error", u "authorization_pending"));
   (C_oauth2_TokenErrorResponse, (u "error", u "slow_down"));
   (C_oauth2_TokenErrorResponse, (u "error", u "access_denied"));
   (C_oauth2_TokenErrorResponse, (u "error", u "expired_token"));
   (C_oauth2_TokenErrorResponse, (u "error", u "invalid_target"));
   (C_oidc_ClientRegistrationErrorResponse, (u "error", u "invalid_software_statement"));
   (C_oidc_ClientRegistrationErrorResponse, (u "error", u "unapproved_software_statement"))].

(** the value of an enumerated parameter is one of the specification, or a list of such ones *)
Definition spec_choice (p : ptype) (vs : list ustr) (v : value) : Prop :=
  match p with
  | PWords => exists l, v = VList (map VStr l) /\ incl l vs
  | _ => exists t, v = VStr t /\ In t vs
  end.
Definition spec_choices (c : cls) (d : dict value) : Prop :=
  forall k p vs v, In (c, (k, p, vs)) spec_values -> dget d k = Some v -> spec_choice p vs v.
(** no request object and no ID Token as a hint *)
Definition without_tokens (d : dict value) : Prop := dget d (u "request") = None /\ dget d (u "id_token_hint") = None.

(** ** Required parameters *)
(** the parameters that the specification requires, of messages for which it says no more than types, required
    parameters and enumerated values *)
Definition spec_demands : list (cls * list ustr) := [
  (** RFC 6749 4.1.1, 4.1.2.1, 5.2, 4.1.3, 5.1, 4.3.2, 4.4.2, 6 *)
  (C_oauth2_AuthorizationRequest, [u "response_type"; u "client_id"]);
  (C_oauth2_AuthorizationErrorResponse, [u "error"]);
  (C_oauth2_TokenErrorResponse, [u "error"]);
  (C_oauth2_AccessTokenResponse, [u "access_token"; u "token_type"]);
  (C_oauth2_ROPCAccessTokenRequest, [u "grant_type"; u "username"; u "password"]);
  (C_oauth2_CCAccessTokenRequest, [u "grant_type"]);
  (C_oauth2_RefreshAccessTokenRequest, [u "grant_type"; u "refresh_token"]);
  (** RFC 7662 2.1, 2.2 *)
  (C_oauth2_TokenIntrospectionRequest, [u "token"]);
  (C_oauth2_TokenIntrospectionResponse, [u "active"]);
  (** RFC 8693 2.1, 2.2.1 *)
  (C_oauth2_TokenExchangeRequest, [u "grant_type"; u "subject_token"; u "subject_token_type"]);
  (C_oauth2_TokenExchangeResponse, [u "access_token"; u "issued_token_type"; u "token_type"]);
  (** RFC 8417 2.2 *)
  (C_oauth2_SecurityEventToken, [u "iss"; u "iat"; u "jti"; u "events"]);
  (** RFC 8628 3.1, 3.2 *)
  (C_device_AuthorizationRequest, [u "client_id"]);
  (C_device_AuthorizationResponse, [u "device_code"; u "user_code"; u "verification_uri"; u "expires_in"]);
  (** OpenID Connect Core 3.1.2.6, 3.1.3.1, 3.1.3.4, 5.1.1, 5.3.1, 5.3.3, 12.1 *)
  (C_oidc_AuthorizationErrorResponse, [u "error"]);
  (C_oidc_AccessTokenRequest, [u "grant_type"; u "code"; u "redirect_uri"]);
  (C_oidc_TokenErrorResponse, [u "error"]);
  (C_oidc_AddressClaim, []);
  (C_oidc_UserInfoRequest, []);
  (C_oidc_UserInfoErrorResponse, [u "error"]);
  (C_oidc_RefreshAccessTokenRequest, [u "grant_type"; u "refresh_token"]);
  (** OpenID Connect Dynamic Client Registration 3.3; Discovery 2; RFC 7033 4.4.4 *)
  (C_oidc_ClientRegistrationErrorResponse, [u "error"]);
  (C_oidc_DiscoveryRequest, [u "resource"; u "rel"]);
  (C_oidc_WebFingerRequest, [u "resource"; u "rel"]);
  (C_oidc_Link, [u "rel"]) ].
(** ... and further ones: RFC 8414 2; RFC 7033 4.4; RFC 6749 4.1.3 (redirect_uri if the authorization request had one) *)
Definition spec_demands_more : list (cls * list ustr) := [
  (C_oauth2_ASConfigurationResponse, [u "issuer"; u "response_types_supported"]);
  (C_oidc_JRD, []);
  (C_oauth2_AccessTokenRequest, [u "grant_type"; u "code"]) ].

(** what the library demands beyond these *)
Definition demanded_more : list (cls * ustr) := [
  (C_oauth2_ASConfigurationResponse, u "grant_types_supported");
  (C_oidc_JRD, u "links");
  (C_oauth2_AccessTokenRequest, u "redirect_uri") ].

(** ** Defaults *)
(** what an absent parameter stands for, OpenID Connect Dynamic Client Registration 2; Discovery 3, 2; the value
    that the parameter always has, RFC 6749 4.1.3, 4.4.2, 6; OpenID Connect Core 3.1.3.1, 12.1 *)
Definition spec_defaults : list (cls * (ustr * value)) := [
  (C_oidc_RegistrationRequest, (u "application_type", VStr (u "web")));
  (C_oidc_RegistrationRequest, (u "response_types", VList [VStr (u "code")]));
  (C_oidc_ProviderConfigurationResponse, (u "grant_types_supported", VList [VStr (u "authorization_code"); VStr (u "implicit")]));
  (C_oidc_ProviderConfigurationResponse, (u "token_endpoint_auth_methods_supported", VList [VStr (u "client_secret_basic")]));
  (C_oidc_ProviderConfigurationResponse, (u "claims_parameter_supported", VBool false));
  (C_oidc_ProviderConfigurationResponse, (u "request_parameter_supported", VBool false));
  (C_oidc_ProviderConfigurationResponse, (u "request_uri_parameter_supported", VBool true));
  (C_oauth2_AccessTokenRequest, (u "grant_type", VStr (u "authorization_code")));
  (C_oidc_AccessTokenRequest, (u "grant_type", VStr (u "authorization_code")));
  (C_oauth2_CCAccessTokenRequest, (u "grant_type", VStr (u "client_credentials")));
  (C_oauth2_RefreshAccessTokenRequest, (u "grant_type", VStr (u "refresh_token")));
  (C_oidc_RefreshAccessTokenRequest, (u "grant_type", VStr (u "refresh_token")));
  (C_oidc_WebFingerRequest, (u "rel", VStr (u "http://openid.net/specs/connect/1.0/issuer"))) ].
(** ... and further ones; RFC 8628 3.4 *)
Definition spec_defaults_more : list (cls * (ustr * value)) := [
  (C_oidc_RegistrationRequest, (u "grant_types", VList [VStr (u "authorization_code")]));
  (C_oidc_RegistrationRequest, (u "id_token_signed_response_alg", VStr (u "RS256")));
  (C_oidc_RegistrationRequest, (u "token_endpoint_auth_method", VStr (u "client_secret_basic")));
  (C_oidc_RegistrationRequest, (u "require_auth_time", VBool false));
  (C_oidc_ProviderConfigurationResponse, (u "response_modes_supported", VList [VStr (u "query"); VStr (u "fragment")]));
  (C_oidc_ProviderConfigurationResponse, (u "claim_types_supported", VList [VStr (u "normal")]));
  (C_oidc_ProviderConfigurationResponse, (u "require_request_uri_registration", VBool false));
  (C_device_AccessTokenRequest, (u "grant_type", VStr (u "urn:ietf:params:oauth:grant-type:device_code"))) ].
(** what the library gives absent parameters where the specifications have another value or no such parameter *)
Definition other_defaults : list (cls * (ustr * value)) := [
  (C_oidc_ProviderConfigurationResponse, (u "require_request_uri_registration", VBool true));
  (C_device_AccessTokenRequest, (u "grant_type", VStr (u "authorization_code")));
  (C_oauth2_ASConfigurationResponse, (u "version", VStr (u "3.0")));
  (C_oidc_ProviderConfigurationResponse, (u "version", VStr (u "3.0"))) ].
