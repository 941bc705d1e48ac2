(** The keyword arguments of verify(). *)
From Coq Require Import List NArith ZArith Bool String.
From Verif Require Import Base.Ustr Model.Cls Model.Value Model.Env.
Import ListNotations.
Open Scope list_scope.
Open Scope N_scope.

(** what the caller expects of the message, and what the caller tolerates *)
Definition expectations : list ustr := [u "iss"; u "nonce"; u "client_id"; u "aud"; u "allowed_sign_alg"].
Definition indulgences : list ustr := [u "verify"; u "allow_sign_alg_none"; u "allow_http"].
(** [K2] has the arguments of [K1], perhaps more expectations and fewer indulgences *)
Definition stricter (K2 K1 : kwargs) : Prop :=
  kw_jar K1 = kw_jar K2 /\
  forall k, kget K1 k = kget K2 k \/ (In k expectations /\ kget K1 k = None) \/ (In k indulgences /\ kget K2 k = None).
(** [get_jwt_verify_keys] of the key jar has no use for the identifier of the client and the permitted algorithms *)
Definition keys_blind (E : env) : Prop :=
  forall i b tok a1 a2, (forall k, ~ In k [u "client_id"; u "allowed_sign_alg"; u "allow_sign_alg_none"] -> dget a1 k = dget a2 k) ->
    e_kj_keys E i b tok a1 = e_kj_keys E i b tok a2.

(** the arguments that verify() of a class and its subclasses uses *)
Definition token_args : list ustr :=
  [u "verify"; u "encalg"; u "encenc"; u "sigalg"; u "issuer"; u "allow_missing_kid"; u "no_kid_issuer"; u "trusting"; u "skew";
   u "nonce_storage_time"; u "client_id"; u "allow_sign_alg_none"; u "allowed_sign_alg"].
Definition object_args : list ustr := [u "opponent_id"; u "sender"; u "alg"; u "encalg"; u "encenc"].
Definition uses : list (cls * list ustr) :=
  [(C_oauth2_AuthorizationResponse, [u "client_id"; u "iss"]);
   (C_oauth2_JWTSecuredAuthorizationRequest, object_args);
   (C_oauth2_PushedAuthorizationRequest, object_args);
   (C_oidc_AccessTokenResponse, u "iss" :: u "nonce" :: token_args);
   (C_oidc_AuthorizationResponse, u "iss" :: u "nonce" :: token_args);
   (C_oidc_MessageWithIdToken, u "iss" :: u "nonce" :: token_args);
   (C_session_EndSessionRequest, u "iss" :: u "nonce" :: token_args);
   (C_oidc_AuthorizationRequest, u "nonce" :: object_args);
   (C_oidc_IdToken, [u "iss"; u "client_id"; u "skew"; u "nonce_storage_time"; u "nonce"]);
   (C_oidc_ProviderConfigurationResponse, [u "allow_http"]);
   (C_oidc_JsonWebToken, [u "skew"; u "aud"; u "iss"]);
   (C_session_LogoutToken, [u "aud"; u "iss"; u "skew"; u "allowed_sign_alg"]);
   (C_session_BackChannelLogoutRequest, u "iss" :: u "aud" :: token_args)].
Definition used (c : cls) (k : ustr) : Prop := exists b l, In (b, l) uses /\ subclass c b = true /\ In k l.
(** the classes that hand the key jar on *)
Definition uses_jar (c : cls) : bool :=
  existsb (fun b => subclass c b)
    [C_oauth2_JWTSecuredAuthorizationRequest; C_oauth2_PushedAuthorizationRequest; C_oidc_AccessTokenResponse; C_oidc_AuthorizationResponse;
     C_oidc_MessageWithIdToken; C_session_EndSessionRequest; C_oidc_AuthorizationRequest; C_session_BackChannelLogoutRequest].
