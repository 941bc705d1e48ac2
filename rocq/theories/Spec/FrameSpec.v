(** What verify() may change. *)
From Coq Require Import List NArith Bool String.
From Verif Require Import Base.Ustr Model.Cls Model.Value.
Import ListNotations.
Open Scope list_scope.
Open Scope N_scope.

(** the parameters that verify() of a class and its subclasses may write or remove *)
Definition verified_names : list ustr := [u "__verified_id_token"; u "__verified_id_token_hint"; u "__verified_request"].
Definition written : list (cls * list ustr) :=
  [(C_oidc_AccessTokenResponse, verified_names);
   (C_oidc_AuthorizationResponse, verified_names);
   (C_oidc_AuthorizationRequest, u "verified_id_token_hint" :: verified_names);
   (C_session_EndSessionRequest, verified_names);
   (C_oidc_MessageWithIdToken, [u "__verified_id_token"]);
   (C_session_BackChannelLogoutRequest, [u "__verified_logout_token"]);
   (C_oidc_RegistrationRequest, [u "request_object_encryption_enc"; u "id_token_encrypted_response_enc"; u "userinfo_encrypted_response_enc"]);
   (C_ida_IDAClaimsRequest, [u "verified_claims"])].
Definition may_write (c : cls) (k : ustr) : Prop := exists b ns, In (b, ns) written /\ subclass c b = true /\ In k ns.

(** but for the names in [P], both have the same entries in the same order *)
Inductive only_changed (P : ustr -> Prop) : dict value -> dict value -> Prop :=
  | SbNil : only_changed P [] []
  | SbBoth k v d d' : ~ P k -> only_changed P d d' -> only_changed P ((k, v) :: d) ((k, v) :: d')
  | SbLeft k v d d' : P k -> only_changed P d d' -> only_changed P ((k, v) :: d) d'
  | SbRight k v d d' : P k -> only_changed P d d' -> only_changed P d ((k, v) :: d').
