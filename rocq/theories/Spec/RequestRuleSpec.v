(** Requests that may carry a request object (OpenID Connect Core 6.1, RFC 9101, RFC 9126). *)
From Verif Require Import Model.Cls Model.Value.

Definition takes_object (c : cls) : Prop :=
  subclass c C_oidc_AuthorizationRequest = true \/ c = C_oauth2_JWTSecuredAuthorizationRequest \/ c = C_oauth2_PushedAuthorizationRequest.
