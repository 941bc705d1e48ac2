(** Generated by tools/gen_tables.py from the text of /repo/src/oidcmsg.
    The message classes of the library, their names and method resolution order. *)
From Coq Require Import List String.
From Verif Require Import Base.Ustr.
Import ListNotations.
Open Scope string_scope.

(** One constructor for each class derived from Message.
    message.py:29, oauth2/__init__.py:37-392, oidc/__init__.py:337-1144, oidc/session.py, oidc/identity_assurance.py *)
Inductive cls :=
| C_Message (* src/oidcmsg/message.py:29-846 *)
| C_oauth2_ResponseMessage (* src/oidcmsg/oauth2/__init__.py:34-51 *)
| C_oauth2_AuthorizationErrorResponse (* src/oidcmsg/oauth2/__init__.py:54-68 *)
| C_oauth2_TokenErrorResponse (* src/oidcmsg/oauth2/__init__.py:71-80 *)
| C_oauth2_AccessTokenRequest (* src/oidcmsg/oauth2/__init__.py:83-95 *)
| C_oauth2_AuthorizationRequest (* src/oidcmsg/oauth2/__init__.py:98-136 *)
| C_oauth2_AuthorizationResponse (* src/oidcmsg/oauth2/__init__.py:139-173 *)
| C_oauth2_AccessTokenResponse (* src/oidcmsg/oauth2/__init__.py:176-188 *)
| C_oauth2_NoneResponse (* src/oidcmsg/oauth2/__init__.py:191-195 *)
| C_oauth2_ROPCAccessTokenRequest (* src/oidcmsg/oauth2/__init__.py:198-207 *)
| C_oauth2_CCAccessTokenRequest (* src/oidcmsg/oauth2/__init__.py:210-219 *)
| C_oauth2_RefreshAccessTokenRequest (* src/oidcmsg/oauth2/__init__.py:222-234 *)
| C_oauth2_ResourceRequest (* src/oidcmsg/oauth2/__init__.py:237-238 *)
| C_oauth2_ASConfigurationResponse (* src/oidcmsg/oauth2/__init__.py:241-266 *)
| C_oauth2_TokenIntrospectionRequest (* src/oidcmsg/oauth2/__init__.py:270-278 *)
| C_oauth2_TokenIntrospectionResponse (* src/oidcmsg/oauth2/__init__.py:281-295 *)
| C_oauth2_TokenExchangeRequest (* src/oidcmsg/oauth2/__init__.py:299-310 *)
| C_oauth2_TokenExchangeResponse (* src/oidcmsg/oauth2/__init__.py:313-321 *)
| C_oauth2_JWTSecuredAuthorizationRequest (* src/oidcmsg/oauth2/__init__.py:324-351 *)
| C_oauth2_PushedAuthorizationRequest (* src/oidcmsg/oauth2/__init__.py:354-378 *)
| C_oauth2_SecurityEventToken (* src/oidcmsg/oauth2/__init__.py:381-392 *)
| C_oidc_RefreshAccessTokenRequest (* src/oidcmsg/oidc/__init__.py:259-260 *)
| C_oidc_TokenErrorResponse (* src/oidcmsg/oidc/__init__.py:263-264 *)
| C_oidc_AccessTokenResponse (* src/oidcmsg/oidc/__init__.py:337-350 *)
| C_oidc_UserInfoRequest (* src/oidcmsg/oidc/__init__.py:353-356 *)
| C_oidc_AuthorizationResponse (* src/oidcmsg/oidc/__init__.py:359-387 *)
| C_oidc_AuthorizationErrorResponse (* src/oidcmsg/oidc/__init__.py:390-401 *)
| C_oidc_AuthorizationRequest (* src/oidcmsg/oidc/__init__.py:404-513 *)
| C_oidc_AccessTokenRequest (* src/oidcmsg/oidc/__init__.py:516-526 *)
| C_oidc_AddressClaim (* src/oidcmsg/oidc/__init__.py:529-537 *)
| C_oidc_OpenIDSchema (* src/oidcmsg/oidc/__init__.py:540-587 *)
| C_oidc_RegistrationRequest (* src/oidcmsg/oidc/__init__.py:590-664 *)
| C_oidc_RegistrationResponse (* src/oidcmsg/oidc/__init__.py:667-699 *)
| C_oidc_ClientRegistrationErrorResponse (* src/oidcmsg/oidc/__init__.py:702-707 *)
| C_oidc_IdToken (* src/oidcmsg/oidc/__init__.py:710-832 *)
| C_oidc_MessageWithIdToken (* src/oidcmsg/oidc/__init__.py:835-844 *)
| C_oidc_OpenIDRequest (* src/oidcmsg/oidc/__init__.py:847-848 *)
| C_oidc_ProviderConfigurationResponse (* src/oidcmsg/oidc/__init__.py:851-940 *)
| C_oidc_JsonWebToken (* src/oidcmsg/oidc/__init__.py:944-1004 *)
| C_oidc_AuthnToken (* src/oidcmsg/oidc/__init__.py:1007-1015 *)
| C_oidc_UserInfoErrorResponse (* src/oidcmsg/oidc/__init__.py:1031-1035 *)
| C_oidc_DiscoveryRequest (* src/oidcmsg/oidc/__init__.py:1038-1042 *)
| C_oidc_Link (* src/oidcmsg/oidc/__init__.py:1045-1055 *)
| C_oidc_JRD (* src/oidcmsg/oidc/__init__.py:1111-1120 *)
| C_oidc_WebFingerRequest (* src/oidcmsg/oidc/__init__.py:1123-1128 *)
| C_oidc_ResourceRequest (* src/oidcmsg/oidc/__init__.py:1131-1132 *)
| C_oidc_Claims (* src/oidcmsg/oidc/__init__.py:1135-1137 *)
| C_oidc_ClaimsRequest (* src/oidcmsg/oidc/__init__.py:1140-1144 *)
| C_device_AuthorizationRequest (* src/oidcmsg/oauth2/device_authorization.py:10-14 *)
| C_device_AuthorizationResponse (* src/oidcmsg/oauth2/device_authorization.py:17-25 *)
| C_device_AccessTokenRequest (* src/oidcmsg/oauth2/device_authorization.py:28-36 *)
| C_session_RefreshSessionRequest (* src/oidcmsg/oidc/session.py:27-32 *)
| C_session_RefreshSessionResponse (* src/oidcmsg/oidc/session.py:35-38 *)
| C_session_CheckSessionRequest (* src/oidcmsg/oidc/session.py:41-42 *)
| C_session_CheckIDRequest (* src/oidcmsg/oidc/session.py:45-46 *)
| C_session_EndSessionRequest (* src/oidcmsg/oidc/session.py:49-78 *)
| C_session_EndSessionResponse (* src/oidcmsg/oidc/session.py:81-83 *)
| C_session_LogoutToken (* src/oidcmsg/oidc/session.py:86-154 *)
| C_session_BackChannelLogoutRequest (* src/oidcmsg/oidc/session.py:160-186 *)
| C_ida_PlaceOfBirth (* src/oidcmsg/oidc/identity_assurance.py:23-28 *)
| C_ida_IdentityAssuranceClaims (* src/oidcmsg/oidc/identity_assurance.py:151-161 *)
| C_ida_Verifier (* src/oidcmsg/oidc/identity_assurance.py:167-171 *)
| C_ida_Issuer (* src/oidcmsg/oidc/identity_assurance.py:187-191 *)
| C_ida_Document (* src/oidcmsg/oidc/identity_assurance.py:207-214 *)
| C_ida_Evidence (* src/oidcmsg/oidc/identity_assurance.py:224-257 *)
| C_ida_IdDocument (* src/oidcmsg/oidc/identity_assurance.py:275-282 *)
| C_ida_Provider (* src/oidcmsg/oidc/identity_assurance.py:299-303 *)
| C_ida_UtilityBill (* src/oidcmsg/oidc/identity_assurance.py:319-324 *)
| C_ida_QES (* src/oidcmsg/oidc/identity_assurance.py:341-347 *)
| C_ida_VerificationElement (* src/oidcmsg/oidc/identity_assurance.py:371-377 *)
| C_ida_VerifiedClaims (* src/oidcmsg/oidc/identity_assurance.py:394-398 *)
| C_ida_VerificationElementRequest (* src/oidcmsg/oidc/identity_assurance.py:473-483 *)
| C_ida_VerifiedClaimsRequest (* src/oidcmsg/oidc/identity_assurance.py:494-502 *)
| C_ida_IDAClaimsRequest (* src/oidcmsg/oidc/identity_assurance.py:505-512 *)
.

(** classes are compared by identity, message.py:571-586 *)
Definition cls_eq_dec : forall a b : cls, {a = b} + {a <> b}.
Proof. decide equality. Defined.

(** All classes, in source order. message.py:29 and the classes derived from Message *)
Definition all_cls : list cls := [C_Message; C_oauth2_ResponseMessage; C_oauth2_AuthorizationErrorResponse; C_oauth2_TokenErrorResponse; C_oauth2_AccessTokenRequest; C_oauth2_AuthorizationRequest; C_oauth2_AuthorizationResponse; C_oauth2_AccessTokenResponse; C_oauth2_NoneResponse; C_oauth2_ROPCAccessTokenRequest; C_oauth2_CCAccessTokenRequest; C_oauth2_RefreshAccessTokenRequest; C_oauth2_ResourceRequest; C_oauth2_ASConfigurationResponse; C_oauth2_TokenIntrospectionRequest; C_oauth2_TokenIntrospectionResponse; C_oauth2_TokenExchangeRequest; C_oauth2_TokenExchangeResponse; C_oauth2_JWTSecuredAuthorizationRequest; C_oauth2_PushedAuthorizationRequest; C_oauth2_SecurityEventToken; C_oidc_RefreshAccessTokenRequest; C_oidc_TokenErrorResponse; C_oidc_AccessTokenResponse; C_oidc_UserInfoRequest; C_oidc_AuthorizationResponse; C_oidc_AuthorizationErrorResponse; C_oidc_AuthorizationRequest; C_oidc_AccessTokenRequest; C_oidc_AddressClaim; C_oidc_OpenIDSchema; C_oidc_RegistrationRequest; C_oidc_RegistrationResponse; C_oidc_ClientRegistrationErrorResponse; C_oidc_IdToken; C_oidc_MessageWithIdToken; C_oidc_OpenIDRequest; C_oidc_ProviderConfigurationResponse; C_oidc_JsonWebToken; C_oidc_AuthnToken; C_oidc_UserInfoErrorResponse; C_oidc_DiscoveryRequest; C_oidc_Link; C_oidc_JRD; C_oidc_WebFingerRequest; C_oidc_ResourceRequest; C_oidc_Claims; C_oidc_ClaimsRequest; C_device_AuthorizationRequest; C_device_AuthorizationResponse; C_device_AccessTokenRequest; C_session_RefreshSessionRequest; C_session_RefreshSessionResponse; C_session_CheckSessionRequest; C_session_CheckIDRequest; C_session_EndSessionRequest; C_session_EndSessionResponse; C_session_LogoutToken; C_session_BackChannelLogoutRequest; C_ida_PlaceOfBirth; C_ida_IdentityAssuranceClaims; C_ida_Verifier; C_ida_Issuer; C_ida_Document; C_ida_Evidence; C_ida_IdDocument; C_ida_Provider; C_ida_UtilityBill; C_ida_QES; C_ida_VerificationElement; C_ida_VerifiedClaims; C_ida_VerificationElementRequest; C_ida_VerifiedClaimsRequest; C_ida_IDAClaimsRequest].

(** [cls.__name__]; message.py:57-63 *)
Definition cls_name (c : cls) : ustr :=
  match c with
  | C_Message => u "Message"
  | C_oauth2_ResponseMessage => u "ResponseMessage"
  | C_oauth2_AuthorizationErrorResponse => u "AuthorizationErrorResponse"
  | C_oauth2_TokenErrorResponse => u "TokenErrorResponse"
  | C_oauth2_AccessTokenRequest => u "AccessTokenRequest"
  | C_oauth2_AuthorizationRequest => u "AuthorizationRequest"
  | C_oauth2_AuthorizationResponse => u "AuthorizationResponse"
  | C_oauth2_AccessTokenResponse => u "AccessTokenResponse"
  | C_oauth2_NoneResponse => u "NoneResponse"
  | C_oauth2_ROPCAccessTokenRequest => u "ROPCAccessTokenRequest"
  | C_oauth2_CCAccessTokenRequest => u "CCAccessTokenRequest"
  | C_oauth2_RefreshAccessTokenRequest => u "RefreshAccessTokenRequest"
  | C_oauth2_ResourceRequest => u "ResourceRequest"
  | C_oauth2_ASConfigurationResponse => u "ASConfigurationResponse"
  | C_oauth2_TokenIntrospectionRequest => u "TokenIntrospectionRequest"
  | C_oauth2_TokenIntrospectionResponse => u "TokenIntrospectionResponse"
  | C_oauth2_TokenExchangeRequest => u "TokenExchangeRequest"
  | C_oauth2_TokenExchangeResponse => u "TokenExchangeResponse"
  | C_oauth2_JWTSecuredAuthorizationRequest => u "JWTSecuredAuthorizationRequest"
  | C_oauth2_PushedAuthorizationRequest => u "PushedAuthorizationRequest"
  | C_oauth2_SecurityEventToken => u "SecurityEventToken"
  | C_oidc_RefreshAccessTokenRequest => u "RefreshAccessTokenRequest"
  | C_oidc_TokenErrorResponse => u "TokenErrorResponse"
  | C_oidc_AccessTokenResponse => u "AccessTokenResponse"
  | C_oidc_UserInfoRequest => u "UserInfoRequest"
  | C_oidc_AuthorizationResponse => u "AuthorizationResponse"
  | C_oidc_AuthorizationErrorResponse => u "AuthorizationErrorResponse"
  | C_oidc_AuthorizationRequest => u "AuthorizationRequest"
  | C_oidc_AccessTokenRequest => u "AccessTokenRequest"
  | C_oidc_AddressClaim => u "AddressClaim"
  | C_oidc_OpenIDSchema => u "OpenIDSchema"
  | C_oidc_RegistrationRequest => u "RegistrationRequest"
  | C_oidc_RegistrationResponse => u "RegistrationResponse"
  | C_oidc_ClientRegistrationErrorResponse => u "ClientRegistrationErrorResponse"
  | C_oidc_IdToken => u "IdToken"
  | C_oidc_MessageWithIdToken => u "MessageWithIdToken"
  | C_oidc_OpenIDRequest => u "OpenIDRequest"
  | C_oidc_ProviderConfigurationResponse => u "ProviderConfigurationResponse"
  | C_oidc_JsonWebToken => u "JsonWebToken"
  | C_oidc_AuthnToken => u "AuthnToken"
  | C_oidc_UserInfoErrorResponse => u "UserInfoErrorResponse"
  | C_oidc_DiscoveryRequest => u "DiscoveryRequest"
  | C_oidc_Link => u "Link"
  | C_oidc_JRD => u "JRD"
  | C_oidc_WebFingerRequest => u "WebFingerRequest"
  | C_oidc_ResourceRequest => u "ResourceRequest"
  | C_oidc_Claims => u "Claims"
  | C_oidc_ClaimsRequest => u "ClaimsRequest"
  | C_device_AuthorizationRequest => u "AuthorizationRequest"
  | C_device_AuthorizationResponse => u "AuthorizationResponse"
  | C_device_AccessTokenRequest => u "AccessTokenRequest"
  | C_session_RefreshSessionRequest => u "RefreshSessionRequest"
  | C_session_RefreshSessionResponse => u "RefreshSessionResponse"
  | C_session_CheckSessionRequest => u "CheckSessionRequest"
  | C_session_CheckIDRequest => u "CheckIDRequest"
  | C_session_EndSessionRequest => u "EndSessionRequest"
  | C_session_EndSessionResponse => u "EndSessionResponse"
  | C_session_LogoutToken => u "LogoutToken"
  | C_session_BackChannelLogoutRequest => u "BackChannelLogoutRequest"
  | C_ida_PlaceOfBirth => u "PlaceOfBirth"
  | C_ida_IdentityAssuranceClaims => u "IdentityAssuranceClaims"
  | C_ida_Verifier => u "Verifier"
  | C_ida_Issuer => u "Issuer"
  | C_ida_Document => u "Document"
  | C_ida_Evidence => u "Evidence"
  | C_ida_IdDocument => u "IdDocument"
  | C_ida_Provider => u "Provider"
  | C_ida_UtilityBill => u "UtilityBill"
  | C_ida_QES => u "QES"
  | C_ida_VerificationElement => u "VerificationElement"
  | C_ida_VerifiedClaims => u "VerifiedClaims"
  | C_ida_VerificationElementRequest => u "VerificationElementRequest"
  | C_ida_VerifiedClaimsRequest => u "VerifiedClaimsRequest"
  | C_ida_IDAClaimsRequest => u "IDAClaimsRequest"
  end.

(** [cls.__mro__] restricted to Message subclasses; message.py:29 and the classes derived from Message *)
Definition cls_mro (c : cls) : list cls :=
  match c with
  | C_Message => [C_Message]
  | C_oauth2_ResponseMessage => [C_oauth2_ResponseMessage; C_Message]
  | C_oauth2_AuthorizationErrorResponse => [C_oauth2_AuthorizationErrorResponse; C_oauth2_ResponseMessage; C_Message]
  | C_oauth2_TokenErrorResponse => [C_oauth2_TokenErrorResponse; C_oauth2_ResponseMessage; C_Message]
  | C_oauth2_AccessTokenRequest => [C_oauth2_AccessTokenRequest; C_Message]
  | C_oauth2_AuthorizationRequest => [C_oauth2_AuthorizationRequest; C_Message]
  | C_oauth2_AuthorizationResponse => [C_oauth2_AuthorizationResponse; C_oauth2_ResponseMessage; C_Message]
  | C_oauth2_AccessTokenResponse => [C_oauth2_AccessTokenResponse; C_oauth2_ResponseMessage; C_Message]
  | C_oauth2_NoneResponse => [C_oauth2_NoneResponse; C_oauth2_ResponseMessage; C_Message]
  | C_oauth2_ROPCAccessTokenRequest => [C_oauth2_ROPCAccessTokenRequest; C_Message]
  | C_oauth2_CCAccessTokenRequest => [C_oauth2_CCAccessTokenRequest; C_Message]
  | C_oauth2_RefreshAccessTokenRequest => [C_oauth2_RefreshAccessTokenRequest; C_Message]
  | C_oauth2_ResourceRequest => [C_oauth2_ResourceRequest; C_Message]
  | C_oauth2_ASConfigurationResponse => [C_oauth2_ASConfigurationResponse; C_Message]
  | C_oauth2_TokenIntrospectionRequest => [C_oauth2_TokenIntrospectionRequest; C_Message]
  | C_oauth2_TokenIntrospectionResponse => [C_oauth2_TokenIntrospectionResponse; C_Message]
  | C_oauth2_TokenExchangeRequest => [C_oauth2_TokenExchangeRequest; C_Message]
  | C_oauth2_TokenExchangeResponse => [C_oauth2_TokenExchangeResponse; C_Message]
  | C_oauth2_JWTSecuredAuthorizationRequest => [C_oauth2_JWTSecuredAuthorizationRequest; C_oauth2_AuthorizationRequest; C_Message]
  | C_oauth2_PushedAuthorizationRequest => [C_oauth2_PushedAuthorizationRequest; C_oauth2_AuthorizationRequest; C_Message]
  | C_oauth2_SecurityEventToken => [C_oauth2_SecurityEventToken; C_Message]
  | C_oidc_RefreshAccessTokenRequest => [C_oidc_RefreshAccessTokenRequest; C_oauth2_RefreshAccessTokenRequest; C_Message]
  | C_oidc_TokenErrorResponse => [C_oidc_TokenErrorResponse; C_oauth2_TokenErrorResponse; C_oauth2_ResponseMessage; C_Message]
  | C_oidc_AccessTokenResponse => [C_oidc_AccessTokenResponse; C_oauth2_AccessTokenResponse; C_oauth2_ResponseMessage; C_Message]
  | C_oidc_UserInfoRequest => [C_oidc_UserInfoRequest; C_Message]
  | C_oidc_AuthorizationResponse => [C_oidc_AuthorizationResponse; C_oauth2_AuthorizationResponse; C_oauth2_AccessTokenResponse; C_oauth2_ResponseMessage; C_Message]
  | C_oidc_AuthorizationErrorResponse => [C_oidc_AuthorizationErrorResponse; C_oauth2_AuthorizationErrorResponse; C_oauth2_ResponseMessage; C_Message]
  | C_oidc_AuthorizationRequest => [C_oidc_AuthorizationRequest; C_oauth2_AuthorizationRequest; C_Message]
  | C_oidc_AccessTokenRequest => [C_oidc_AccessTokenRequest; C_oauth2_AccessTokenRequest; C_Message]
  | C_oidc_AddressClaim => [C_oidc_AddressClaim; C_Message]
  | C_oidc_OpenIDSchema => [C_oidc_OpenIDSchema; C_oauth2_ResponseMessage; C_Message]
  | C_oidc_RegistrationRequest => [C_oidc_RegistrationRequest; C_Message]
  | C_oidc_RegistrationResponse => [C_oidc_RegistrationResponse; C_oauth2_ResponseMessage; C_Message]
  | C_oidc_ClientRegistrationErrorResponse => [C_oidc_ClientRegistrationErrorResponse; C_oauth2_ResponseMessage; C_Message]
  | C_oidc_IdToken => [C_oidc_IdToken; C_oidc_OpenIDSchema; C_oauth2_ResponseMessage; C_Message]
  | C_oidc_MessageWithIdToken => [C_oidc_MessageWithIdToken; C_Message]
  | C_oidc_OpenIDRequest => [C_oidc_OpenIDRequest; C_oidc_AuthorizationRequest; C_oauth2_AuthorizationRequest; C_Message]
  | C_oidc_ProviderConfigurationResponse => [C_oidc_ProviderConfigurationResponse; C_oauth2_ResponseMessage; C_Message]
  | C_oidc_JsonWebToken => [C_oidc_JsonWebToken; C_Message]
  | C_oidc_AuthnToken => [C_oidc_AuthnToken; C_oidc_JsonWebToken; C_Message]
  | C_oidc_UserInfoErrorResponse => [C_oidc_UserInfoErrorResponse; C_oauth2_ResponseMessage; C_Message]
  | C_oidc_DiscoveryRequest => [C_oidc_DiscoveryRequest; C_Message]
  | C_oidc_Link => [C_oidc_Link; C_Message]
  | C_oidc_JRD => [C_oidc_JRD; C_oauth2_ResponseMessage; C_Message]
  | C_oidc_WebFingerRequest => [C_oidc_WebFingerRequest; C_Message]
  | C_oidc_ResourceRequest => [C_oidc_ResourceRequest; C_Message]
  | C_oidc_Claims => [C_oidc_Claims; C_Message]
  | C_oidc_ClaimsRequest => [C_oidc_ClaimsRequest; C_Message]
  | C_device_AuthorizationRequest => [C_device_AuthorizationRequest; C_Message]
  | C_device_AuthorizationResponse => [C_device_AuthorizationResponse; C_Message]
  | C_device_AccessTokenRequest => [C_device_AccessTokenRequest; C_oidc_AccessTokenRequest; C_oauth2_AccessTokenRequest; C_Message]
  | C_session_RefreshSessionRequest => [C_session_RefreshSessionRequest; C_oidc_MessageWithIdToken; C_Message]
  | C_session_RefreshSessionResponse => [C_session_RefreshSessionResponse; C_oidc_MessageWithIdToken; C_oauth2_ResponseMessage; C_Message]
  | C_session_CheckSessionRequest => [C_session_CheckSessionRequest; C_oidc_MessageWithIdToken; C_Message]
  | C_session_CheckIDRequest => [C_session_CheckIDRequest; C_Message]
  | C_session_EndSessionRequest => [C_session_EndSessionRequest; C_Message]
  | C_session_EndSessionResponse => [C_session_EndSessionResponse; C_oauth2_ResponseMessage; C_Message]
  | C_session_LogoutToken => [C_session_LogoutToken; C_Message]
  | C_session_BackChannelLogoutRequest => [C_session_BackChannelLogoutRequest; C_Message]
  | C_ida_PlaceOfBirth => [C_ida_PlaceOfBirth; C_Message]
  | C_ida_IdentityAssuranceClaims => [C_ida_IdentityAssuranceClaims; C_oidc_OpenIDSchema; C_oauth2_ResponseMessage; C_Message]
  | C_ida_Verifier => [C_ida_Verifier; C_Message]
  | C_ida_Issuer => [C_ida_Issuer; C_Message]
  | C_ida_Document => [C_ida_Document; C_Message]
  | C_ida_Evidence => [C_ida_Evidence; C_Message]
  | C_ida_IdDocument => [C_ida_IdDocument; C_ida_Evidence; C_Message]
  | C_ida_Provider => [C_ida_Provider; C_oidc_AddressClaim; C_Message]
  | C_ida_UtilityBill => [C_ida_UtilityBill; C_ida_Evidence; C_Message]
  | C_ida_QES => [C_ida_QES; C_ida_Evidence; C_Message]
  | C_ida_VerificationElement => [C_ida_VerificationElement; C_Message]
  | C_ida_VerifiedClaims => [C_ida_VerifiedClaims; C_Message]
  | C_ida_VerificationElementRequest => [C_ida_VerificationElementRequest; C_Message]
  | C_ida_VerifiedClaimsRequest => [C_ida_VerifiedClaimsRequest; C_Message]
  | C_ida_IDAClaimsRequest => [C_ida_IDAClaimsRequest; C_oidc_ClaimsRequest; C_Message]
  end.

(** [inspect.getmembers] of module oidcmsg.oauth2 restricted to Message subclasses (sorted by name);
    oauth2/__init__.py:395-410 *)
Definition members_oauth2 : list (ustr * cls) :=
  [(u "ASConfigurationResponse", C_oauth2_ASConfigurationResponse);
   (u "AccessTokenRequest", C_oauth2_AccessTokenRequest);
   (u "AccessTokenResponse", C_oauth2_AccessTokenResponse);
   (u "AuthorizationErrorResponse", C_oauth2_AuthorizationErrorResponse);
   (u "AuthorizationRequest", C_oauth2_AuthorizationRequest);
   (u "AuthorizationResponse", C_oauth2_AuthorizationResponse);
   (u "CCAccessTokenRequest", C_oauth2_CCAccessTokenRequest);
   (u "JWTSecuredAuthorizationRequest", C_oauth2_JWTSecuredAuthorizationRequest);
   (u "Message", C_Message);
   (u "NoneResponse", C_oauth2_NoneResponse);
   (u "PushedAuthorizationRequest", C_oauth2_PushedAuthorizationRequest);
   (u "ROPCAccessTokenRequest", C_oauth2_ROPCAccessTokenRequest);
   (u "RefreshAccessTokenRequest", C_oauth2_RefreshAccessTokenRequest);
   (u "ResourceRequest", C_oauth2_ResourceRequest);
   (u "ResponseMessage", C_oauth2_ResponseMessage);
   (u "SecurityEventToken", C_oauth2_SecurityEventToken);
   (u "TokenErrorResponse", C_oauth2_TokenErrorResponse);
   (u "TokenExchangeRequest", C_oauth2_TokenExchangeRequest);
   (u "TokenExchangeResponse", C_oauth2_TokenExchangeResponse);
   (u "TokenIntrospectionRequest", C_oauth2_TokenIntrospectionRequest);
   (u "TokenIntrospectionResponse", C_oauth2_TokenIntrospectionResponse)].

(** [inspect.getmembers] of module oidcmsg.oidc restricted to Message subclasses (sorted by name);
    oidc/__init__.py:1147-1157 *)
Definition members_oidc : list (ustr * cls) :=
  [(u "AccessTokenRequest", C_oidc_AccessTokenRequest);
   (u "AccessTokenResponse", C_oidc_AccessTokenResponse);
   (u "AddressClaim", C_oidc_AddressClaim);
   (u "AuthnToken", C_oidc_AuthnToken);
   (u "AuthorizationErrorResponse", C_oidc_AuthorizationErrorResponse);
   (u "AuthorizationRequest", C_oidc_AuthorizationRequest);
   (u "AuthorizationResponse", C_oidc_AuthorizationResponse);
   (u "Claims", C_oidc_Claims);
   (u "ClaimsRequest", C_oidc_ClaimsRequest);
   (u "ClientRegistrationErrorResponse", C_oidc_ClientRegistrationErrorResponse);
   (u "DiscoveryRequest", C_oidc_DiscoveryRequest);
   (u "IdToken", C_oidc_IdToken);
   (u "JRD", C_oidc_JRD);
   (u "JsonWebToken", C_oidc_JsonWebToken);
   (u "Link", C_oidc_Link);
   (u "Message", C_Message);
   (u "MessageWithIdToken", C_oidc_MessageWithIdToken);
   (u "OpenIDRequest", C_oidc_OpenIDRequest);
   (u "OpenIDSchema", C_oidc_OpenIDSchema);
   (u "ProviderConfigurationResponse", C_oidc_ProviderConfigurationResponse);
   (u "RefreshAccessTokenRequest", C_oidc_RefreshAccessTokenRequest);
   (u "RegistrationRequest", C_oidc_RegistrationRequest);
   (u "RegistrationResponse", C_oidc_RegistrationResponse);
   (u "ResourceRequest", C_oidc_ResourceRequest);
   (u "ResponseMessage", C_oauth2_ResponseMessage);
   (u "TokenErrorResponse", C_oidc_TokenErrorResponse);
   (u "UserInfoErrorResponse", C_oidc_UserInfoErrorResponse);
   (u "UserInfoRequest", C_oidc_UserInfoRequest);
   (u "WebFingerRequest", C_oidc_WebFingerRequest)].
