(** The classes of the library. *)
From Coq Require Import List Bool.
From Verif Require Import Model.Cls.
Import ListNotations.

(** the classes of different modules that have the same name *)
Definition namesakes : list (list cls) :=
  [[C_oauth2_AuthorizationErrorResponse; C_oidc_AuthorizationErrorResponse];
   [C_oauth2_TokenErrorResponse; C_oidc_TokenErrorResponse];
   [C_oauth2_AccessTokenRequest; C_oidc_AccessTokenRequest; C_device_AccessTokenRequest];
   [C_oauth2_AuthorizationRequest; C_oidc_AuthorizationRequest; C_device_AuthorizationRequest];
   [C_oauth2_AuthorizationResponse; C_oidc_AuthorizationResponse; C_device_AuthorizationResponse];
   [C_oauth2_AccessTokenResponse; C_oidc_AccessTokenResponse];
   [C_oauth2_RefreshAccessTokenRequest; C_oidc_RefreshAccessTokenRequest];
   [C_oauth2_ResourceRequest; C_oidc_ResourceRequest]].
