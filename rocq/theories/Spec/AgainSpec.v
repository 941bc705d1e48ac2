(** Requests that may carry a request object. *)
From Coq Require Import Bool.
From Verif Require Import Model.Cls Model.Value.

(** the classes whose verify() reads a request object: OpenID Connect authorization requests, requests secured by a JWT and
    pushed requests *)
Definition takes_request (c : cls) : bool :=
  subclass c C_oidc_AuthorizationRequest || subclass c C_oauth2_JWTSecuredAuthorizationRequest || subclass c C_oauth2_PushedAuthorizationRequest.
