(** Generated by tools/gen_tables.py from the text of /repo/src/oidcmsg:
    c_param, c_default and c_allowed_values of each message class after the
    module bodies of message, oauth2, oidc, device_authorization, session and
    identity_assurance have run (oidc/__init__.py:390-401 extends the list of
    oauth2.AuthorizationErrorResponse in place, so both classes show it). *)
From Coq Require Import List String ZArith.
From Verif Require Import Base.Ustr Model.Cls Model.Value Model.Pspec.
Import ListNotations.
Open Scope string_scope.

(** SINGLE_OPTIONAL_STRING (src/oidcmsg/message.py:966) *)
Definition sp00 : pspec := mkP (TStr) false (None) (None) false.

(** SINGLE_REQUIRED_STRING (src/oidcmsg/message.py:965) *)
Definition sp01 : pspec := mkP (TStr) true (None) (None) false.

(** REQUIRED_LIST_OF_SP_SEP_STRINGS (src/oidcmsg/message.py:977) *)
Definition sp02 : pspec := mkP (TList (TStr)) true (Some SerSpSep) (Some (DeSpSep)) false.

(** OPTIONAL_LIST_OF_SP_SEP_STRINGS (src/oidcmsg/message.py:975) *)
Definition sp03 : pspec := mkP (TList (TStr)) false (Some SerSpSep) (Some (DeSpSep)) false.

(** SINGLE_OPTIONAL_INT (src/oidcmsg/message.py:967) *)
Definition sp04 : pspec := mkP (TInt) false (None) (None) false.

(** OPTIONAL_LIST_OF_STRINGS (src/oidcmsg/message.py:971) *)
Definition sp05 : pspec := mkP (TList (TStr)) false (Some SerList) (Some (DeList)) false.

(** REQUIRED_LIST_OF_STRINGS (src/oidcmsg/message.py:973) *)
Definition sp06 : pspec := mkP (TList (TStr)) true (Some SerList) (Some (DeList)) false.

(** SINGLE_REQUIRED_BOOLEAN (src/oidcmsg/message.py:969) *)
Definition sp07 : pspec := mkP (TBool) true (None) (None) false.

(** SINGLE_REQUIRED_INT (src/oidcmsg/message.py:968), SINGLE_REQUIRED_INT (src/oidcmsg/oidc/__init__.py:95) *)
Definition sp08 : pspec := mkP (TInt) true (None) (None) false.

(** SINGLE_OPTIONAL_JSON (src/oidcmsg/message.py:979) *)
Definition sp09 : pspec := mkP (TDict) false (Some SerJson) (Some (DeJson)) false.

(** SINGLE_OPTIONAL_IDTOKEN (src/oidcmsg/oidc/__init__.py:209) *)
Definition sp10 : pspec := mkP (TMsg C_Message) false (Some SerMsg) (None) false.

(** SINGLE_OPTIONAL_CLAIMSREQ (src/oidcmsg/oidc/__init__.py:214) *)
Definition sp11 : pspec := mkP (TMsg C_Message) false (Some SerMsgJson) (Some (DeJsonCls C_oidc_ClaimsRequest)) false.

(** SINGLE_OPTIONAL_BOOLEAN (src/oidcmsg/oidc/__init__.py:92), OPTIONAL_LOGICAL (src/oidcmsg/oidc/__init__.py:204) *)
Definition sp12 : pspec := mkP (TBool) false (None) (None) false.

(** OPTIONAL_ADDRESS (src/oidcmsg/oidc/__init__.py:203) *)
Definition sp13 : pspec := mkP (TMsg C_Message) false (Some SerMsg) (Some (DeOneOf C_oidc_AddressClaim)) false.

(** OPTIONAL_MESSAGE (src/oidcmsg/message.py:988), OPTIONAL_VERIFICATION_REQUEST (src/oidcmsg/oidc/identity_assurance.py:403) *)
Definition sp14 : pspec := mkP (TMsg C_Message) false (Some SerMsg) (Some (DeMsg)) false.

(** SINGLE_OPTIONAL_DICT (src/oidcmsg/oidc/__init__.py:217) *)
Definition sp15 : pspec := mkP (TDict) false (Some SerMsgJson) (Some (DeDict)) false.

(** SINGLE_REQUIRED_IDTOKEN (src/oidcmsg/oidc/__init__.py:210) *)
Definition sp16 : pspec := mkP (TMsg C_Message) true (Some SerMsg) (None) false.

(** REQUIRED_LINKS (src/oidcmsg/oidc/__init__.py:1108) *)
Definition sp17 : pspec := mkP (TList (TMsg C_oidc_Link)) true (Some SerLinkList) (Some (DeLink)) false.

(** OPTIONAL_MULTIPLE_Claims (src/oidcmsg/oidc/__init__.py:205) *)
Definition sp18 : pspec := mkP (TMsg C_Message) false (Some SerClaims) (Some (DeOneOf C_oidc_Claims)) false.

(** SINGLE_REQUIRED_JSON (src/oidcmsg/message.py:982) *)
Definition sp19 : pspec := mkP (TDict) true (Some SerJson) (Some (DeJson)) false.

(** REQUIRED_ISSUER (src/oidcmsg/oidc/identity_assurance.py:204) *)
Definition sp20 : pspec := mkP (TMsg C_ida_Issuer) true (Some SerMsg) (Some (DeMsgCls C_ida_Issuer)) false.

(** REQURIED_TIME_STAMP (src/oidcmsg/oidc/identity_assurance.py:122) *)
Definition sp21 : pspec := mkP (TStr) true (Some SerTime) (Some (DeTime)) false.

(** REQUIRED_VERIFIER (src/oidcmsg/oidc/identity_assurance.py:184) *)
Definition sp22 : pspec := mkP (TMsg C_ida_Verifier) true (Some SerMsg) (Some (DeMsgCls C_ida_Verifier)) false.

(** OPTIONAL_TIME_STAMP (src/oidcmsg/oidc/identity_assurance.py:123) *)
Definition sp23 : pspec := mkP (TStr) false (Some SerTime) (Some (DeTime)) false.

(** OPTIONAL_DOCUMENT (src/oidcmsg/oidc/identity_assurance.py:221) *)
Definition sp24 : pspec := mkP (TMsg C_ida_Document) false (Some SerMsg) (Some (DeOneOf C_ida_Document)) false.

(** REQUIRED_PROVIDER (src/oidcmsg/oidc/identity_assurance.py:316) *)
Definition sp25 : pspec := mkP (TMsg C_ida_Provider) true (Some SerMsg) (Some (DeMsgCls C_ida_Provider)) false.

(** OPTIONAL_EVIDENCE_LIST (src/oidcmsg/oidc/identity_assurance.py:272) *)
Definition sp26 : pspec := mkP (TList (TMsg C_ida_Evidence)) false (Some SerMsgList) (Some (DeEvidenceList)) true.

(** OPTIONAL_VERIFICATION_ELEMENT (src/oidcmsg/oidc/identity_assurance.py:390) *)
Definition sp27 : pspec := mkP (TMsg C_ida_VerificationElement) false (Some SerMsg) (Some (DeMsgCls C_ida_VerificationElement)) false.

(** OPTIONAL_IDA_CLAIMS (src/oidcmsg/oidc/identity_assurance.py:164) *)
Definition sp28 : pspec := mkP (TMsg C_ida_IdentityAssuranceClaims) false (Some SerMsg) (Some (DeMsg)) false.

(** src/oidcmsg/message.py:29-846 *)
Definition cd_Message : clsdef := {|
  cd_name := u "Message";
  cd_param := [];
  cd_default := [];
  cd_allowed := [] |}.

(** src/oidcmsg/oauth2/__init__.py:34-51 *)
Definition cd_oauth2_ResponseMessage : clsdef := {|
  cd_name := u "ResponseMessage";
  cd_param := [(u "error", sp00);
    (u "error_description", sp00);
    (u "error_uri", sp00)];
  cd_default := [];
  cd_allowed := [] |}.

(** src/oidcmsg/oauth2/__init__.py:54-68 *)
Definition cd_oauth2_AuthorizationErrorResponse : clsdef := {|
  cd_name := u "AuthorizationErrorResponse";
  cd_param := [(u "error", sp00);
    (u "error_description", sp00);
    (u "error_uri", sp00);
    (u "state", sp00)];
  cd_default := [];
  cd_allowed := [(u "error", [VStr (u "invalid_request"); VStr (u "unauthorized_client"); VStr (u "access_denied"); VStr (u "unsupported_response_type"); VStr (u "invalid_scope"); VStr (u "server_error"); VStr (u "temporarily_unavailable"); VStr (u "interaction_required"); VStr (u "login_required"); VStr (u "session_selection_required"); VStr (u "consent_required"); VStr (u "invalid_request_uri"); VStr (u "invalid_request_object"); VStr (u "registration_not_supported"); VStr (u "request_not_supported"); VStr (u "request_uri_not_supported")])] |}.

(** src/oidcmsg/oauth2/__init__.py:71-80 *)
Definition cd_oauth2_TokenErrorResponse : clsdef := {|
  cd_name := u "TokenErrorResponse";
  cd_param := [(u "error", sp00);
    (u "error_description", sp00);
    (u "error_uri", sp00)];
  cd_default := [];
  cd_allowed := [(u "error", [VStr (u "invalid_request"); VStr (u "invalid_client"); VStr (u "invalid_grant"); VStr (u "unauthorized_client"); VStr (u "unsupported_grant_type"); VStr (u "invalid_scope")])] |}.

(** src/oidcmsg/oauth2/__init__.py:83-95 *)
Definition cd_oauth2_AccessTokenRequest : clsdef := {|
  cd_name := u "AccessTokenRequest";
  cd_param := [(u "grant_type", sp01);
    (u "code", sp01);
    (u "redirect_uri", sp01);
    (u "client_id", sp00);
    (u "client_secret", sp00);
    (u "state", sp00)];
  cd_default := [(u "grant_type", VStr (u "authorization_code"))];
  cd_allowed := [] |}.

(** src/oidcmsg/oauth2/__init__.py:98-136 *)
Definition cd_oauth2_AuthorizationRequest : clsdef := {|
  cd_name := u "AuthorizationRequest";
  cd_param := [(u "response_type", sp02);
    (u "client_id", sp01);
    (u "scope", sp03);
    (u "redirect_uri", sp00);
    (u "state", sp00)];
  cd_default := [];
  cd_allowed := [] |}.

(** src/oidcmsg/oauth2/__init__.py:139-173 *)
Definition cd_oauth2_AuthorizationResponse : clsdef := {|
  cd_name := u "AuthorizationResponse";
  cd_param := [(u "error", sp00);
    (u "error_description", sp00);
    (u "error_uri", sp00);
    (u "code", sp01);
    (u "state", sp00);
    (u "iss", sp00);
    (u "client_id", sp00)];
  cd_default := [];
  cd_allowed := [] |}.

(** src/oidcmsg/oauth2/__init__.py:176-188 *)
Definition cd_oauth2_AccessTokenResponse : clsdef := {|
  cd_name := u "AccessTokenResponse";
  cd_param := [(u "error", sp00);
    (u "error_description", sp00);
    (u "error_uri", sp00);
    (u "access_token", sp01);
    (u "token_type", sp01);
    (u "expires_in", sp04);
    (u "refresh_token", sp00);
    (u "scope", sp03);
    (u "state", sp00)];
  cd_default := [];
  cd_allowed := [] |}.

(** src/oidcmsg/oauth2/__init__.py:191-195 *)
Definition cd_oauth2_NoneResponse : clsdef := {|
  cd_name := u "NoneResponse";
  cd_param := [(u "error", sp00);
    (u "error_description", sp00);
    (u "error_uri", sp00);
    (u "state", sp00)];
  cd_default := [];
  cd_allowed := [] |}.

(** src/oidcmsg/oauth2/__init__.py:198-207 *)
Definition cd_oauth2_ROPCAccessTokenRequest : clsdef := {|
  cd_name := u "ROPCAccessTokenRequest";
  cd_param := [(u "grant_type", sp01);
    (u "username", sp00);
    (u "password", sp00);
    (u "scope", sp03)];
  cd_default := [];
  cd_allowed := [] |}.

(** src/oidcmsg/oauth2/__init__.py:210-219 *)
Definition cd_oauth2_CCAccessTokenRequest : clsdef := {|
  cd_name := u "CCAccessTokenRequest";
  cd_param := [(u "grant_type", sp01);
    (u "scope", sp03)];
  cd_default := [(u "grant_type", VStr (u "client_credentials"))];
  cd_allowed := [(u "grant_type", [VStr (u "client_credentials")])] |}.

(** src/oidcmsg/oauth2/__init__.py:222-234 *)
Definition cd_oauth2_RefreshAccessTokenRequest : clsdef := {|
  cd_name := u "RefreshAccessTokenRequest";
  cd_param := [(u "grant_type", sp01);
    (u "refresh_token", sp01);
    (u "scope", sp03);
    (u "client_id", sp00);
    (u "client_secret", sp00)];
  cd_default := [(u "grant_type", VStr (u "refresh_token"))];
  cd_allowed := [(u "grant_type", [VStr (u "refresh_token")])] |}.

(** src/oidcmsg/oauth2/__init__.py:237-238 *)
Definition cd_oauth2_ResourceRequest : clsdef := {|
  cd_name := u "ResourceRequest";
  cd_param := [(u "access_token", sp00)];
  cd_default := [];
  cd_allowed := [] |}.

(** src/oidcmsg/oauth2/__init__.py:241-266 *)
Definition cd_oauth2_ASConfigurationResponse : clsdef := {|
  cd_name := u "ASConfigurationResponse";
  cd_param := [(u "error", sp00);
    (u "error_description", sp00);
    (u "error_uri", sp00);
    (u "issuer", sp01);
    (u "authorization_endpoint", sp00);
    (u "token_endpoint", sp00);
    (u "jwks_uri", sp00);
    (u "registration_endpoint", sp00);
    (u "scopes_supported", sp05);
    (u "response_types_supported", sp06);
    (u "response_modes_supported", sp05);
    (u "grant_types_supported", sp06);
    (u "token_endpoint_auth_methods_supported", sp05);
    (u "token_endpoint_auth_signing_alg_values_supported", sp05);
    (u "service_documentation", sp00);
    (u "ui_locales_supported", sp05);
    (u "op_policy_uri", sp00);
    (u "op_tos_uri", sp00);
    (u "revocation_endpoint", sp00);
    (u "introspection_endpoint", sp00)];
  cd_default := [(u "version", VStr (u "3.0"))];
  cd_allowed := [] |}.

(** src/oidcmsg/oauth2/__init__.py:270-278 *)
Definition cd_oauth2_TokenIntrospectionRequest : clsdef := {|
  cd_name := u "TokenIntrospectionRequest";
  cd_param := [(u "token", sp01);
    (u "token_type_hint", sp00);
    (u "client_id", sp00);
    (u "client_assertion_type", sp00);
    (u "client_assertion", sp00)];
  cd_default := [];
  cd_allowed := [] |}.

(** src/oidcmsg/oauth2/__init__.py:281-295 *)
Definition cd_oauth2_TokenIntrospectionResponse : clsdef := {|
  cd_name := u "TokenIntrospectionResponse";
  cd_param := [(u "active", sp07);
    (u "scope", sp03);
    (u "client_id", sp00);
    (u "username", sp00);
    (u "token_type", sp00);
    (u "exp", sp04);
    (u "iat", sp04);
    (u "nbf", sp04);
    (u "sub", sp00);
    (u "aud", sp05);
    (u "iss", sp00);
    (u "jti", sp00)];
  cd_default := [];
  cd_allowed := [] |}.

(** src/oidcmsg/oauth2/__init__.py:299-310 *)
Definition cd_oauth2_TokenExchangeRequest : clsdef := {|
  cd_name := u "TokenExchangeRequest";
  cd_param := [(u "grant_type", sp01);
    (u "resource", sp05);
    (u "audience", sp05);
    (u "scope", sp03);
    (u "requested_token_type", sp00);
    (u "subject_token", sp01);
    (u "subject_token_type", sp01);
    (u "actor_token", sp00);
    (u "actor_token_type", sp00)];
  cd_default := [];
  cd_allowed := [] |}.

(** src/oidcmsg/oauth2/__init__.py:313-321 *)
Definition cd_oauth2_TokenExchangeResponse : clsdef := {|
  cd_name := u "TokenExchangeResponse";
  cd_param := [(u "access_token", sp01);
    (u "issued_token_type", sp01);
    (u "token_type", sp01);
    (u "expires_in", sp04);
    (u "refresh_token", sp00);
    (u "scope", sp03)];
  cd_default := [];
  cd_allowed := [] |}.

(** src/oidcmsg/oauth2/__init__.py:324-351 *)
Definition cd_oauth2_JWTSecuredAuthorizationRequest : clsdef := {|
  cd_name := u "JWTSecuredAuthorizationRequest";
  cd_param := [(u "response_type", sp02);
    (u "client_id", sp01);
    (u "scope", sp03);
    (u "redirect_uri", sp00);
    (u "state", sp00);
    (u "request", sp00);
    (u "request_uri", sp00)];
  cd_default := [];
  cd_allowed := [] |}.

(** src/oidcmsg/oauth2/__init__.py:354-378 *)
Definition cd_oauth2_PushedAuthorizationRequest : clsdef := {|
  cd_name := u "PushedAuthorizationRequest";
  cd_param := [(u "response_type", sp02);
    (u "client_id", sp01);
    (u "scope", sp03);
    (u "redirect_uri", sp00);
    (u "state", sp00);
    (u "request", sp00)];
  cd_default := [];
  cd_allowed := [] |}.

(** src/oidcmsg/oauth2/__init__.py:381-392 *)
Definition cd_oauth2_SecurityEventToken : clsdef := {|
  cd_name := u "SecurityEventToken";
  cd_param := [(u "iss", sp01);
    (u "iat", sp08);
    (u "jti", sp01);
    (u "aud", sp05);
    (u "sub", sp00);
    (u "exp", sp04);
    (u "events", sp09);
    (u "txt", sp00);
    (u "toe", sp04)];
  cd_default := [];
  cd_allowed := [] |}.

(** src/oidcmsg/oidc/__init__.py:259-260 *)
Definition cd_oidc_RefreshAccessTokenRequest : clsdef := {|
  cd_name := u "RefreshAccessTokenRequest";
  cd_param := [(u "grant_type", sp01);
    (u "refresh_token", sp01);
    (u "scope", sp03);
    (u "client_id", sp00);
    (u "client_secret", sp00)];
  cd_default := [(u "grant_type", VStr (u "refresh_token"))];
  cd_allowed := [(u "grant_type", [VStr (u "refresh_token")])] |}.

(** src/oidcmsg/oidc/__init__.py:263-264 *)
Definition cd_oidc_TokenErrorResponse : clsdef := {|
  cd_name := u "TokenErrorResponse";
  cd_param := [(u "error", sp00);
    (u "error_description", sp00);
    (u "error_uri", sp00)];
  cd_default := [];
  cd_allowed := [(u "error", [VStr (u "invalid_request"); VStr (u "invalid_client"); VStr (u "invalid_grant"); VStr (u "unauthorized_client"); VStr (u "unsupported_grant_type"); VStr (u "invalid_scope")])] |}.

(** src/oidcmsg/oidc/__init__.py:337-350 *)
Definition cd_oidc_AccessTokenResponse : clsdef := {|
  cd_name := u "AccessTokenResponse";
  cd_param := [(u "error", sp00);
    (u "error_description", sp00);
    (u "error_uri", sp00);
    (u "access_token", sp01);
    (u "token_type", sp01);
    (u "expires_in", sp04);
    (u "refresh_token", sp00);
    (u "scope", sp03);
    (u "state", sp00);
    (u "id_token", sp00)];
  cd_default := [];
  cd_allowed := [] |}.

(** src/oidcmsg/oidc/__init__.py:353-356 *)
Definition cd_oidc_UserInfoRequest : clsdef := {|
  cd_name := u "UserInfoRequest";
  cd_param := [(u "access_token", sp00)];
  cd_default := [];
  cd_allowed := [] |}.

(** src/oidcmsg/oidc/__init__.py:359-387 *)
Definition cd_oidc_AuthorizationResponse : clsdef := {|
  cd_name := u "AuthorizationResponse";
  cd_param := [(u "error", sp00);
    (u "error_description", sp00);
    (u "error_uri", sp00);
    (u "code", sp00);
    (u "state", sp00);
    (u "iss", sp00);
    (u "client_id", sp00);
    (u "access_token", sp00);
    (u "token_type", sp00);
    (u "expires_in", sp04);
    (u "refresh_token", sp00);
    (u "scope", sp03);
    (u "id_token", sp10);
    (u "session_state", sp00)];
  cd_default := [];
  cd_allowed := [] |}.

(** src/oidcmsg/oidc/__init__.py:390-401 *)
Definition cd_oidc_AuthorizationErrorResponse : clsdef := {|
  cd_name := u "AuthorizationErrorResponse";
  cd_param := [(u "error", sp00);
    (u "error_description", sp00);
    (u "error_uri", sp00);
    (u "state", sp00)];
  cd_default := [];
  cd_allowed := [(u "error", [VStr (u "invalid_request"); VStr (u "unauthorized_client"); VStr (u "access_denied"); VStr (u "unsupported_response_type"); VStr (u "invalid_scope"); VStr (u "server_error"); VStr (u "temporarily_unavailable"); VStr (u "interaction_required"); VStr (u "login_required"); VStr (u "session_selection_required"); VStr (u "consent_required"); VStr (u "invalid_request_uri"); VStr (u "invalid_request_object"); VStr (u "registration_not_supported"); VStr (u "request_not_supported"); VStr (u "request_uri_not_supported")])] |}.

(** src/oidcmsg/oidc/__init__.py:404-513 *)
Definition cd_oidc_AuthorizationRequest : clsdef := {|
  cd_name := u "AuthorizationRequest";
  cd_param := [(u "response_type", sp02);
    (u "client_id", sp01);
    (u "scope", sp02);
    (u "redirect_uri", sp01);
    (u "state", sp00);
    (u "nonce", sp00);
    (u "display", sp00);
    (u "prompt", sp03);
    (u "max_age", sp04);
    (u "ui_locales", sp03);
    (u "claims_locales", sp03);
    (u "id_token_hint", sp00);
    (u "login_hint", sp00);
    (u "acr_values", sp03);
    (u "claims", sp11);
    (u "registration", sp09);
    (u "request", sp00);
    (u "request_uri", sp00);
    (u "response_mode", sp00)];
  cd_default := [];
  cd_allowed := [(u "display", [VStr (u "page"); VStr (u "popup"); VStr (u "touch"); VStr (u "wap")]); (u "prompt", [VStr (u "none"); VStr (u "login"); VStr (u "consent"); VStr (u "select_account")])] |}.

(** src/oidcmsg/oidc/__init__.py:516-526 *)
Definition cd_oidc_AccessTokenRequest : clsdef := {|
  cd_name := u "AccessTokenRequest";
  cd_param := [(u "grant_type", sp01);
    (u "code", sp01);
    (u "redirect_uri", sp01);
    (u "client_id", sp00);
    (u "client_secret", sp00);
    (u "state", sp00);
    (u "client_assertion_type", sp00);
    (u "client_assertion", sp00)];
  cd_default := [(u "grant_type", VStr (u "authorization_code"))];
  cd_allowed := [(u "client_assertion_type", [VStr (u "urn:ietf:params:oauth:client-assertion-type:jwt-bearer")])] |}.

(** src/oidcmsg/oidc/__init__.py:529-537 *)
Definition cd_oidc_AddressClaim : clsdef := {|
  cd_name := u "AddressClaim";
  cd_param := [(u "formatted", sp00);
    (u "street_address", sp00);
    (u "locality", sp00);
    (u "region", sp00);
    (u "postal_code", sp00);
    (u "country", sp00)];
  cd_default := [];
  cd_allowed := [] |}.

(** src/oidcmsg/oidc/__init__.py:540-587 *)
Definition cd_oidc_OpenIDSchema : clsdef := {|
  cd_name := u "OpenIDSchema";
  cd_param := [(u "error", sp00);
    (u "error_description", sp00);
    (u "error_uri", sp00);
    (u "sub", sp01);
    (u "name", sp00);
    (u "given_name", sp00);
    (u "family_name", sp00);
    (u "middle_name", sp00);
    (u "nickname", sp00);
    (u "preferred_username", sp00);
    (u "profile", sp00);
    (u "picture", sp00);
    (u "website", sp00);
    (u "email", sp00);
    (u "email_verified", sp12);
    (u "gender", sp00);
    (u "birthdate", sp00);
    (u "zoneinfo", sp00);
    (u "locale", sp00);
    (u "phone_number", sp00);
    (u "phone_number_verified", sp12);
    (u "address", sp13);
    (u "updated_at", sp04);
    (u "_claim_names", sp14);
    (u "_claim_sources", sp14)];
  cd_default := [];
  cd_allowed := [] |}.

(** src/oidcmsg/oidc/__init__.py:590-664 *)
Definition cd_oidc_RegistrationRequest : clsdef := {|
  cd_name := u "RegistrationRequest";
  cd_param := [(u "redirect_uris", sp06);
    (u "response_types", sp05);
    (u "grant_types", sp05);
    (u "application_type", sp00);
    (u "contacts", sp05);
    (u "client_name", sp00);
    (u "logo_uri", sp00);
    (u "client_uri", sp00);
    (u "policy_uri", sp00);
    (u "tos_uri", sp00);
    (u "jwks", sp15);
    (u "jwks_uri", sp00);
    (u "sector_identifier_uri", sp00);
    (u "subject_type", sp00);
    (u "id_token_signed_response_alg", sp00);
    (u "id_token_encrypted_response_alg", sp00);
    (u "id_token_encrypted_response_enc", sp00);
    (u "userinfo_signed_response_alg", sp00);
    (u "userinfo_encrypted_response_alg", sp00);
    (u "userinfo_encrypted_response_enc", sp00);
    (u "request_object_signing_alg", sp00);
    (u "request_object_encryption_alg", sp00);
    (u "request_object_encryption_enc", sp00);
    (u "token_endpoint_auth_method", sp00);
    (u "token_endpoint_auth_signing_alg", sp00);
    (u "default_max_age", sp04);
    (u "require_auth_time", sp12);
    (u "default_acr_values", sp05);
    (u "initiate_login_uri", sp00);
    (u "request_uris", sp05);
    (u "post_logout_redirect_uris", sp05);
    (u "frontchannel_logout_uri", sp00);
    (u "frontchannel_logout_session_required", sp12);
    (u "backchannel_logout_uri", sp00);
    (u "backchannel_logout_session_supported", sp12);
    (u "federation_type", sp05);
    (u "organization_name", sp00)];
  cd_default := [(u "application_type", VStr (u "web")); (u "response_types", VList [VStr (u "code")])];
  cd_allowed := [(u "application_type", [VStr (u "native"); VStr (u "web")]); (u "subject_type", [VStr (u "public"); VStr (u "pairwise")])] |}.

(** src/oidcmsg/oidc/__init__.py:667-699 *)
Definition cd_oidc_RegistrationResponse : clsdef := {|
  cd_name := u "RegistrationResponse";
  cd_param := [(u "error", sp00);
    (u "error_description", sp00);
    (u "error_uri", sp00);
    (u "client_id", sp01);
    (u "client_secret", sp00);
    (u "registration_access_token", sp00);
    (u "registration_client_uri", sp00);
    (u "client_id_issued_at", sp04);
    (u "client_secret_expires_at", sp04);
    (u "redirect_uris", sp06);
    (u "response_types", sp05);
    (u "grant_types", sp05);
    (u "application_type", sp00);
    (u "contacts", sp05);
    (u "client_name", sp00);
    (u "logo_uri", sp00);
    (u "client_uri", sp00);
    (u "policy_uri", sp00);
    (u "tos_uri", sp00);
    (u "jwks", sp15);
    (u "jwks_uri", sp00);
    (u "sector_identifier_uri", sp00);
    (u "subject_type", sp00);
    (u "id_token_signed_response_alg", sp00);
    (u "id_token_encrypted_response_alg", sp00);
    (u "id_token_encrypted_response_enc", sp00);
    (u "userinfo_signed_response_alg", sp00);
    (u "userinfo_encrypted_response_alg", sp00);
    (u "userinfo_encrypted_response_enc", sp00);
    (u "request_object_signing_alg", sp00);
    (u "request_object_encryption_alg", sp00);
    (u "request_object_encryption_enc", sp00);
    (u "token_endpoint_auth_method", sp00);
    (u "token_endpoint_auth_signing_alg", sp00);
    (u "default_max_age", sp04);
    (u "require_auth_time", sp12);
    (u "default_acr_values", sp05);
    (u "initiate_login_uri", sp00);
    (u "request_uris", sp05);
    (u "post_logout_redirect_uris", sp05);
    (u "frontchannel_logout_uri", sp00);
    (u "frontchannel_logout_session_required", sp12);
    (u "backchannel_logout_uri", sp00);
    (u "backchannel_logout_session_supported", sp12);
    (u "federation_type", sp05);
    (u "organization_name", sp00)];
  cd_default := [];
  cd_allowed := [] |}.

(** src/oidcmsg/oidc/__init__.py:702-707 *)
Definition cd_oidc_ClientRegistrationErrorResponse : clsdef := {|
  cd_name := u "ClientRegistrationErrorResponse";
  cd_param := [(u "error", sp00);
    (u "error_description", sp00);
    (u "error_uri", sp00)];
  cd_default := [];
  cd_allowed := [(u "error", [VStr (u "invalid_redirect_uri"); VStr (u "invalid_client_metadata"); VStr (u "invalid_configuration_parameter")])] |}.

(** src/oidcmsg/oidc/__init__.py:710-832 *)
Definition cd_oidc_IdToken : clsdef := {|
  cd_name := u "IdToken";
  cd_param := [(u "error", sp00);
    (u "error_description", sp00);
    (u "error_uri", sp00);
    (u "sub", sp01);
    (u "name", sp00);
    (u "given_name", sp00);
    (u "family_name", sp00);
    (u "middle_name", sp00);
    (u "nickname", sp00);
    (u "preferred_username", sp00);
    (u "profile", sp00);
    (u "picture", sp00);
    (u "website", sp00);
    (u "email", sp00);
    (u "email_verified", sp12);
    (u "gender", sp00);
    (u "birthdate", sp00);
    (u "zoneinfo", sp00);
    (u "locale", sp00);
    (u "phone_number", sp00);
    (u "phone_number_verified", sp12);
    (u "address", sp13);
    (u "updated_at", sp04);
    (u "_claim_names", sp14);
    (u "_claim_sources", sp14);
    (u "iss", sp01);
    (u "aud", sp06);
    (u "exp", sp08);
    (u "iat", sp08);
    (u "auth_time", sp04);
    (u "nonce", sp00);
    (u "at_hash", sp00);
    (u "c_hash", sp00);
    (u "acr", sp00);
    (u "amr", sp05);
    (u "azp", sp00);
    (u "sub_jwk", sp00);
    (u "sid", sp00)];
  cd_default := [];
  cd_allowed := [] |}.

(** src/oidcmsg/oidc/__init__.py:835-844 *)
Definition cd_oidc_MessageWithIdToken : clsdef := {|
  cd_name := u "MessageWithIdToken";
  cd_param := [(u "id_token", sp16)];
  cd_default := [];
  cd_allowed := [] |}.

(** src/oidcmsg/oidc/__init__.py:847-848 *)
Definition cd_oidc_OpenIDRequest : clsdef := {|
  cd_name := u "OpenIDRequest";
  cd_param := [(u "response_type", sp02);
    (u "client_id", sp01);
    (u "scope", sp02);
    (u "redirect_uri", sp01);
    (u "state", sp00);
    (u "nonce", sp00);
    (u "display", sp00);
    (u "prompt", sp03);
    (u "max_age", sp04);
    (u "ui_locales", sp03);
    (u "claims_locales", sp03);
    (u "id_token_hint", sp00);
    (u "login_hint", sp00);
    (u "acr_values", sp03);
    (u "claims", sp11);
    (u "registration", sp09);
    (u "request", sp00);
    (u "request_uri", sp00);
    (u "response_mode", sp00)];
  cd_default := [];
  cd_allowed := [(u "display", [VStr (u "page"); VStr (u "popup"); VStr (u "touch"); VStr (u "wap")]); (u "prompt", [VStr (u "none"); VStr (u "login"); VStr (u "consent"); VStr (u "select_account")])] |}.

(** src/oidcmsg/oidc/__init__.py:851-940 *)
Definition cd_oidc_ProviderConfigurationResponse : clsdef := {|
  cd_name := u "ProviderConfigurationResponse";
  cd_param := [(u "error", sp00);
    (u "error_description", sp00);
    (u "error_uri", sp00);
    (u "issuer", sp01);
    (u "authorization_endpoint", sp01);
    (u "token_endpoint", sp00);
    (u "userinfo_endpoint", sp00);
    (u "jwks_uri", sp01);
    (u "registration_endpoint", sp00);
    (u "scopes_supported", sp05);
    (u "response_types_supported", sp06);
    (u "response_modes_supported", sp05);
    (u "grant_types_supported", sp05);
    (u "acr_values_supported", sp05);
    (u "subject_types_supported", sp06);
    (u "id_token_signing_alg_values_supported", sp06);
    (u "id_token_encryption_alg_values_supported", sp05);
    (u "id_token_encryption_enc_values_supported", sp05);
    (u "userinfo_signing_alg_values_supported", sp05);
    (u "userinfo_encryption_alg_values_supported", sp05);
    (u "userinfo_encryption_enc_values_supported", sp05);
    (u "request_object_signing_alg_values_supported", sp05);
    (u "request_object_encryption_alg_values_supported", sp05);
    (u "request_object_encryption_enc_values_supported", sp05);
    (u "token_endpoint_auth_methods_supported", sp05);
    (u "token_endpoint_auth_signing_alg_values_supported", sp05);
    (u "display_values_supported", sp05);
    (u "claim_types_supported", sp05);
    (u "claims_supported", sp05);
    (u "service_documentation", sp00);
    (u "claims_locales_supported", sp05);
    (u "ui_locales_supported", sp05);
    (u "claims_parameter_supported", sp12);
    (u "request_parameter_supported", sp12);
    (u "request_uri_parameter_supported", sp12);
    (u "require_request_uri_registration", sp12);
    (u "op_policy_uri", sp00);
    (u "op_tos_uri", sp00);
    (u "check_session_iframe", sp00);
    (u "end_session_endpoint", sp00);
    (u "frontchannel_logout_supported", sp12);
    (u "frontchannel_logout_session_supported", sp12);
    (u "backchannel_logout_supported", sp12);
    (u "backchannel_logout_session_supported", sp12)];
  cd_default := [(u "version", VStr (u "3.0")); (u "token_endpoint_auth_methods_supported", VList [VStr (u "client_secret_basic")]); (u "claims_parameter_supported", VBool false); (u "request_parameter_supported", VBool false); (u "request_uri_parameter_supported", VBool true); (u "require_request_uri_registration", VBool true); (u "grant_types_supported", VList [VStr (u "authorization_code"); VStr (u "implicit")])];
  cd_allowed := [] |}.

(** src/oidcmsg/oidc/__init__.py:944-1004 *)
Definition cd_oidc_JsonWebToken : clsdef := {|
  cd_name := u "JsonWebToken";
  cd_param := [(u "iss", sp00);
    (u "sub", sp00);
    (u "aud", sp05);
    (u "exp", sp04);
    (u "nbf", sp04);
    (u "iat", sp04);
    (u "jti", sp00)];
  cd_default := [];
  cd_allowed := [] |}.

(** src/oidcmsg/oidc/__init__.py:1007-1015 *)
Definition cd_oidc_AuthnToken : clsdef := {|
  cd_name := u "AuthnToken";
  cd_param := [(u "iss", sp01);
    (u "sub", sp01);
    (u "aud", sp06);
    (u "jti", sp01);
    (u "exp", sp08);
    (u "iat", sp04)];
  cd_default := [];
  cd_allowed := [] |}.

(** src/oidcmsg/oidc/__init__.py:1031-1035 *)
Definition cd_oidc_UserInfoErrorResponse : clsdef := {|
  cd_name := u "UserInfoErrorResponse";
  cd_param := [(u "error", sp00);
    (u "error_description", sp00);
    (u "error_uri", sp00)];
  cd_default := [];
  cd_allowed := [(u "error", [VStr (u "invalid_schema"); VStr (u "invalid_request"); VStr (u "invalid_token"); VStr (u "insufficient_scope")])] |}.

(** src/oidcmsg/oidc/__init__.py:1038-1042 *)
Definition cd_oidc_DiscoveryRequest : clsdef := {|
  cd_name := u "DiscoveryRequest";
  cd_param := [(u "resource", sp01);
    (u "rel", sp01)];
  cd_default := [];
  cd_allowed := [] |}.

(** src/oidcmsg/oidc/__init__.py:1045-1055 *)
Definition cd_oidc_Link : clsdef := {|
  cd_name := u "Link";
  cd_param := [(u "rel", sp01);
    (u "type", sp00);
    (u "href", sp00);
    (u "titles", sp15);
    (u "properties", sp15)];
  cd_default := [];
  cd_allowed := [] |}.

(** src/oidcmsg/oidc/__init__.py:1111-1120 *)
Definition cd_oidc_JRD : clsdef := {|
  cd_name := u "JRD";
  cd_param := [(u "subject", sp00);
    (u "aliases", sp05);
    (u "properties", sp15);
    (u "links", sp17)];
  cd_default := [];
  cd_allowed := [] |}.

(** src/oidcmsg/oidc/__init__.py:1123-1128 *)
Definition cd_oidc_WebFingerRequest : clsdef := {|
  cd_name := u "WebFingerRequest";
  cd_param := [(u "resource", sp01);
    (u "rel", sp01)];
  cd_default := [(u "rel", VStr (u "http://openid.net/specs/connect/1.0/issuer"))];
  cd_allowed := [] |}.

(** src/oidcmsg/oidc/__init__.py:1131-1132 *)
Definition cd_oidc_ResourceRequest : clsdef := {|
  cd_name := u "ResourceRequest";
  cd_param := [(u "access_token", sp00)];
  cd_default := [];
  cd_allowed := [] |}.

(** src/oidcmsg/oidc/__init__.py:1135-1137 *)
Definition cd_oidc_Claims : clsdef := {|
  cd_name := u "Claims";
  cd_param := [];
  cd_default := [];
  cd_allowed := [] |}.

(** src/oidcmsg/oidc/__init__.py:1140-1144 *)
Definition cd_oidc_ClaimsRequest : clsdef := {|
  cd_name := u "ClaimsRequest";
  cd_param := [(u "userinfo", sp18);
    (u "id_token", sp18)];
  cd_default := [];
  cd_allowed := [] |}.

(** src/oidcmsg/oauth2/device_authorization.py:10-14 *)
Definition cd_device_AuthorizationRequest : clsdef := {|
  cd_name := u "AuthorizationRequest";
  cd_param := [(u "client_id", sp01);
    (u "scope", sp00)];
  cd_default := [];
  cd_allowed := [] |}.

(** src/oidcmsg/oauth2/device_authorization.py:17-25 *)
Definition cd_device_AuthorizationResponse : clsdef := {|
  cd_name := u "AuthorizationResponse";
  cd_param := [(u "device_code", sp01);
    (u "user_code", sp01);
    (u "verification_uri", sp01);
    (u "verification_uri_complete", sp00);
    (u "expires_in", sp08);
    (u "interval", sp04)];
  cd_default := [];
  cd_allowed := [] |}.

(** src/oidcmsg/oauth2/device_authorization.py:28-36 *)
Definition cd_device_AccessTokenRequest : clsdef := {|
  cd_name := u "AccessTokenRequest";
  cd_param := [(u "grant_type", sp01);
    (u "code", sp01);
    (u "redirect_uri", sp01);
    (u "client_id", sp00);
    (u "client_secret", sp00);
    (u "state", sp00);
    (u "client_assertion_type", sp00);
    (u "client_assertion", sp00)];
  cd_default := [(u "grant_type", VStr (u "authorization_code"))];
  cd_allowed := [(u "client_assertion_type", [VStr (u "urn:ietf:params:oauth:client-assertion-type:jwt-bearer")])] |}.

(** src/oidcmsg/oidc/session.py:27-32 *)
Definition cd_session_RefreshSessionRequest : clsdef := {|
  cd_name := u "RefreshSessionRequest";
  cd_param := [(u "id_token", sp16);
    (u "redirect_url", sp01);
    (u "state", sp01)];
  cd_default := [];
  cd_allowed := [] |}.

(** src/oidcmsg/oidc/session.py:35-38 *)
Definition cd_session_RefreshSessionResponse : clsdef := {|
  cd_name := u "RefreshSessionResponse";
  cd_param := [(u "id_token", sp16);
    (u "error", sp00);
    (u "error_description", sp00);
    (u "error_uri", sp00);
    (u "state", sp01)];
  cd_default := [];
  cd_allowed := [] |}.

(** src/oidcmsg/oidc/session.py:41-42 *)
Definition cd_session_CheckSessionRequest : clsdef := {|
  cd_name := u "CheckSessionRequest";
  cd_param := [(u "id_token", sp16)];
  cd_default := [];
  cd_allowed := [] |}.

(** src/oidcmsg/oidc/session.py:45-46 *)
Definition cd_session_CheckIDRequest : clsdef := {|
  cd_name := u "CheckIDRequest";
  cd_param := [(u "access_token", sp01)];
  cd_default := [];
  cd_allowed := [] |}.

(** src/oidcmsg/oidc/session.py:49-78 *)
Definition cd_session_EndSessionRequest : clsdef := {|
  cd_name := u "EndSessionRequest";
  cd_param := [(u "id_token_hint", sp10);
    (u "post_logout_redirect_uri", sp00);
    (u "state", sp00)];
  cd_default := [];
  cd_allowed := [] |}.

(** src/oidcmsg/oidc/session.py:81-83 *)
Definition cd_session_EndSessionResponse : clsdef := {|
  cd_name := u "EndSessionResponse";
  cd_param := [(u "error", sp00);
    (u "error_description", sp00);
    (u "error_uri", sp00);
    (u "state", sp00)];
  cd_default := [];
  cd_allowed := [] |}.

(** src/oidcmsg/oidc/session.py:86-154 *)
Definition cd_session_LogoutToken : clsdef := {|
  cd_name := u "LogoutToken";
  cd_param := [(u "iss", sp01);
    (u "sub", sp00);
    (u "aud", sp06);
    (u "iat", sp08);
    (u "jti", sp01);
    (u "events", sp19);
    (u "sid", sp00)];
  cd_default := [];
  cd_allowed := [] |}.

(** src/oidcmsg/oidc/session.py:160-186 *)
Definition cd_session_BackChannelLogoutRequest : clsdef := {|
  cd_name := u "BackChannelLogoutRequest";
  cd_param := [(u "logout_token", sp01)];
  cd_default := [];
  cd_allowed := [] |}.

(** src/oidcmsg/oidc/identity_assurance.py:23-28 *)
Definition cd_ida_PlaceOfBirth : clsdef := {|
  cd_name := u "PlaceOfBirth";
  cd_param := [(u "country", sp01);
    (u "region", sp00);
    (u "locality", sp01)];
  cd_default := [];
  cd_allowed := [] |}.

(** src/oidcmsg/oidc/identity_assurance.py:151-161 *)
Definition cd_ida_IdentityAssuranceClaims : clsdef := {|
  cd_name := u "IdentityAssuranceClaims";
  cd_param := [(u "error", sp00);
    (u "error_description", sp00);
    (u "error_uri", sp00);
    (u "sub", sp01);
    (u "name", sp00);
    (u "given_name", sp00);
    (u "family_name", sp00);
    (u "middle_name", sp00);
    (u "nickname", sp00);
    (u "preferred_username", sp00);
    (u "profile", sp00);
    (u "picture", sp00);
    (u "website", sp00);
    (u "email", sp00);
    (u "email_verified", sp12);
    (u "gender", sp00);
    (u "birthdate", sp00);
    (u "zoneinfo", sp00);
    (u "locale", sp00);
    (u "phone_number", sp00);
    (u "phone_number_verified", sp12);
    (u "address", sp13);
    (u "updated_at", sp04);
    (u "_claim_names", sp14);
    (u "_claim_sources", sp14);
    (u "place_of_birth", sp09);
    (u "nationalities", sp00);
    (u "birth_family_name", sp00);
    (u "birth_given_name", sp00);
    (u "birth_middle_name", sp00);
    (u "salutation", sp00);
    (u "title", sp00)];
  cd_default := [];
  cd_allowed := [] |}.

(** src/oidcmsg/oidc/identity_assurance.py:167-171 *)
Definition cd_ida_Verifier : clsdef := {|
  cd_name := u "Verifier";
  cd_param := [(u "organization", sp01);
    (u "txn", sp01)];
  cd_default := [];
  cd_allowed := [] |}.

(** src/oidcmsg/oidc/identity_assurance.py:187-191 *)
Definition cd_ida_Issuer : clsdef := {|
  cd_name := u "Issuer";
  cd_param := [(u "name", sp01);
    (u "country", sp01)];
  cd_default := [];
  cd_allowed := [] |}.

(** src/oidcmsg/oidc/identity_assurance.py:207-214 *)
Definition cd_ida_Document : clsdef := {|
  cd_name := u "Document";
  cd_param := [(u "type", sp01);
    (u "number", sp01);
    (u "issuer", sp20);
    (u "date_of_issuance", sp21);
    (u "date_of_expiry", sp21)];
  cd_default := [];
  cd_allowed := [] |}.

(** src/oidcmsg/oidc/identity_assurance.py:224-257 *)
Definition cd_ida_Evidence : clsdef := {|
  cd_name := u "Evidence";
  cd_param := [(u "type", sp00)];
  cd_default := [];
  cd_allowed := [] |}.

(** src/oidcmsg/oidc/identity_assurance.py:275-282 *)
Definition cd_ida_IdDocument : clsdef := {|
  cd_name := u "IdDocument";
  cd_param := [(u "type", sp00);
    (u "method", sp01);
    (u "verifier", sp22);
    (u "time", sp23);
    (u "document", sp24)];
  cd_default := [];
  cd_allowed := [] |}.

(** src/oidcmsg/oidc/identity_assurance.py:299-303 *)
Definition cd_ida_Provider : clsdef := {|
  cd_name := u "Provider";
  cd_param := [(u "formatted", sp00);
    (u "street_address", sp00);
    (u "locality", sp00);
    (u "region", sp00);
    (u "postal_code", sp00);
    (u "country", sp00);
    (u "name", sp00)];
  cd_default := [];
  cd_allowed := [] |}.

(** src/oidcmsg/oidc/identity_assurance.py:319-324 *)
Definition cd_ida_UtilityBill : clsdef := {|
  cd_name := u "UtilityBill";
  cd_param := [(u "type", sp00);
    (u "provider", sp25);
    (u "date", sp23)];
  cd_default := [];
  cd_allowed := [] |}.

(** src/oidcmsg/oidc/identity_assurance.py:341-347 *)
Definition cd_ida_QES : clsdef := {|
  cd_name := u "QES";
  cd_param := [(u "type", sp00);
    (u "issuer", sp01);
    (u "serial_number", sp01);
    (u "created_at", sp21)];
  cd_default := [];
  cd_allowed := [] |}.

(** src/oidcmsg/oidc/identity_assurance.py:371-377 *)
Definition cd_ida_VerificationElement : clsdef := {|
  cd_name := u "VerificationElement";
  cd_param := [(u "trust_framework", sp01);
    (u "time", sp23);
    (u "verification_process", sp00);
    (u "evidence", sp26)];
  cd_default := [];
  cd_allowed := [] |}.

(** src/oidcmsg/oidc/identity_assurance.py:394-398 *)
Definition cd_ida_VerifiedClaims : clsdef := {|
  cd_name := u "VerifiedClaims";
  cd_param := [(u "verification", sp27);
    (u "claims", sp28)];
  cd_default := [];
  cd_allowed := [] |}.

(** src/oidcmsg/oidc/identity_assurance.py:473-483 *)
Definition cd_ida_VerificationElementRequest : clsdef := {|
  cd_name := u "VerificationElementRequest";
  cd_param := [(u "trust_framework", sp01);
    (u "time", sp23);
    (u "verification_process", sp00);
    (u "evidence", sp26)];
  cd_default := [];
  cd_allowed := [] |}.

(** src/oidcmsg/oidc/identity_assurance.py:494-502 *)
Definition cd_ida_VerifiedClaimsRequest : clsdef := {|
  cd_name := u "VerifiedClaimsRequest";
  cd_param := [(u "verification", sp14);
    (u "claims", sp28)];
  cd_default := [];
  cd_allowed := [] |}.

(** src/oidcmsg/oidc/identity_assurance.py:505-512 *)
Definition cd_ida_IDAClaimsRequest : clsdef := {|
  cd_name := u "IDAClaimsRequest";
  cd_param := [(u "userinfo", sp18);
    (u "id_token", sp18)];
  cd_default := [];
  cd_allowed := [] |}.

(** class -> tables *)
Definition cdef (c : cls) : clsdef :=
  match c with
  | C_Message => cd_Message
  | C_oauth2_ResponseMessage => cd_oauth2_ResponseMessage
  | C_oauth2_AuthorizationErrorResponse => cd_oauth2_AuthorizationErrorResponse
  | C_oauth2_TokenErrorResponse => cd_oauth2_TokenErrorResponse
  | C_oauth2_AccessTokenRequest => cd_oauth2_AccessTokenRequest
  | C_oauth2_AuthorizationRequest => cd_oauth2_AuthorizationRequest
  | C_oauth2_AuthorizationResponse => cd_oauth2_AuthorizationResponse
  | C_oauth2_AccessTokenResponse => cd_oauth2_AccessTokenResponse
  | C_oauth2_NoneResponse => cd_oauth2_NoneResponse
  | C_oauth2_ROPCAccessTokenRequest => cd_oauth2_ROPCAccessTokenRequest
  | C_oauth2_CCAccessTokenRequest => cd_oauth2_CCAccessTokenRequest
  | C_oauth2_RefreshAccessTokenRequest => cd_oauth2_RefreshAccessTokenRequest
  | C_oauth2_ResourceRequest => cd_oauth2_ResourceRequest
  | C_oauth2_ASConfigurationResponse => cd_oauth2_ASConfigurationResponse
  | C_oauth2_TokenIntrospectionRequest => cd_oauth2_TokenIntrospectionRequest
  | C_oauth2_TokenIntrospectionResponse => cd_oauth2_TokenIntrospectionResponse
  | C_oauth2_TokenExchangeRequest => cd_oauth2_TokenExchangeRequest
  | C_oauth2_TokenExchangeResponse => cd_oauth2_TokenExchangeResponse
  | C_oauth2_JWTSecuredAuthorizationRequest => cd_oauth2_JWTSecuredAuthorizationRequest
  | C_oauth2_PushedAuthorizationRequest => cd_oauth2_PushedAuthorizationRequest
  | C_oauth2_SecurityEventToken => cd_oauth2_SecurityEventToken
  | C_oidc_RefreshAccessTokenRequest => cd_oidc_RefreshAccessTokenRequest
  | C_oidc_TokenErrorResponse => cd_oidc_TokenErrorResponse
  | C_oidc_AccessTokenResponse => cd_oidc_AccessTokenResponse
  | C_oidc_UserInfoRequest => cd_oidc_UserInfoRequest
  | C_oidc_AuthorizationResponse => cd_oidc_AuthorizationResponse
  | C_oidc_AuthorizationErrorResponse => cd_oidc_AuthorizationErrorResponse
  | C_oidc_AuthorizationRequest => cd_oidc_AuthorizationRequest
  | C_oidc_AccessTokenRequest => cd_oidc_AccessTokenRequest
  | C_oidc_AddressClaim => cd_oidc_AddressClaim
  | C_oidc_OpenIDSchema => cd_oidc_OpenIDSchema
  | C_oidc_RegistrationRequest => cd_oidc_RegistrationRequest
  | C_oidc_RegistrationResponse => cd_oidc_RegistrationResponse
  | C_oidc_ClientRegistrationErrorResponse => cd_oidc_ClientRegistrationErrorResponse
  | C_oidc_IdToken => cd_oidc_IdToken
  | C_oidc_MessageWithIdToken => cd_oidc_MessageWithIdToken
  | C_oidc_OpenIDRequest => cd_oidc_OpenIDRequest
  | C_oidc_ProviderConfigurationResponse => cd_oidc_ProviderConfigurationResponse
  | C_oidc_JsonWebToken => cd_oidc_JsonWebToken
  | C_oidc_AuthnToken => cd_oidc_AuthnToken
  | C_oidc_UserInfoErrorResponse => cd_oidc_UserInfoErrorResponse
  | C_oidc_DiscoveryRequest => cd_oidc_DiscoveryRequest
  | C_oidc_Link => cd_oidc_Link
  | C_oidc_JRD => cd_oidc_JRD
  | C_oidc_WebFingerRequest => cd_oidc_WebFingerRequest
  | C_oidc_ResourceRequest => cd_oidc_ResourceRequest
  | C_oidc_Claims => cd_oidc_Claims
  | C_oidc_ClaimsRequest => cd_oidc_ClaimsRequest
  | C_device_AuthorizationRequest => cd_device_AuthorizationRequest
  | C_device_AuthorizationResponse => cd_device_AuthorizationResponse
  | C_device_AccessTokenRequest => cd_device_AccessTokenRequest
  | C_session_RefreshSessionRequest => cd_session_RefreshSessionRequest
  | C_session_RefreshSessionResponse => cd_session_RefreshSessionResponse
  | C_session_CheckSessionRequest => cd_session_CheckSessionRequest
  | C_session_CheckIDRequest => cd_session_CheckIDRequest
  | C_session_EndSessionRequest => cd_session_EndSessionRequest
  | C_session_EndSessionResponse => cd_session_EndSessionResponse
  | C_session_LogoutToken => cd_session_LogoutToken
  | C_session_BackChannelLogoutRequest => cd_session_BackChannelLogoutRequest
  | C_ida_PlaceOfBirth => cd_ida_PlaceOfBirth
  | C_ida_IdentityAssuranceClaims => cd_ida_IdentityAssuranceClaims
  | C_ida_Verifier => cd_ida_Verifier
  | C_ida_Issuer => cd_ida_Issuer
  | C_ida_Document => cd_ida_Document
  | C_ida_Evidence => cd_ida_Evidence
  | C_ida_IdDocument => cd_ida_IdDocument
  | C_ida_Provider => cd_ida_Provider
  | C_ida_UtilityBill => cd_ida_UtilityBill
  | C_ida_QES => cd_ida_QES
  | C_ida_VerificationElement => cd_ida_VerificationElement
  | C_ida_VerifiedClaims => cd_ida_VerifiedClaims
  | C_ida_VerificationElementRequest => cd_ida_VerificationElementRequest
  | C_ida_VerifiedClaimsRequest => cd_ida_VerifiedClaimsRequest
  | C_ida_IDAClaimsRequest => cd_ida_IDAClaimsRequest
  end.
