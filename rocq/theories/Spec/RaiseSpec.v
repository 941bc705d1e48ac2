(** What the exceptions of verify() depend on. *)
From Coq Require Import List NArith ZArith QArith Bool String.
From Verif Require Import Base.Ustr Model.Cls Model.Value Model.Env.
Import ListNotations.
Open Scope list_scope.
Open Scope N_scope.

Inductive vform := Text | Texts | Number | Object.
Definition is_text (v : value) : Prop := exists s, v = VStr s.
Definition has_form (f : vform) (v : value) : Prop :=
  match f with
  | Text => is_text v
  | Texts => is_text v \/ exists l, v = VList (map VStr l)
  | Number => exists q, num_of v = Some q
  | Object => exists l, v = VDict l
  end.

(** the values that verify() of a class and its subclasses looks into *)
Definition looks_into : list (cls * list (ustr * vform)) :=
  [(C_oauth2_ResponseMessage, [(u "error_description", Texts)]);
   (C_oidc_OpenIDSchema, [(u "birthdate", Text)]);
   (C_oidc_IdToken, [(u "aud", Texts); (u "azp", Text); (u "exp", Number); (u "iat", Number)]);
   (C_oidc_AuthorizationResponse, [(u "aud", Texts)]);
   (C_oidc_AuthorizationRequest, [(u "response_type", Texts); (u "scope", Texts); (u "prompt", Texts)]);
   (C_oidc_RegistrationRequest, [(u "initiate_login_uri", Text)]);
   (C_oidc_ProviderConfigurationResponse, [(u "issuer", Text); (u "scopes_supported", Texts); (u "response_types_supported", Texts);
      (u "id_token_signing_alg_values_supported", Texts)]);
   (C_oidc_JsonWebToken, [(u "exp", Number); (u "iat", Number); (u "nbf", Number); (u "aud", Texts)]);
   (C_session_LogoutToken, [(u "events", Object); (u "aud", Texts); (u "iat", Number)])].
Definition as_expected (c : cls) (d : dict value) : Prop :=
  forall b l k f v, In (b, l) looks_into -> subclass c b = true -> In (k, f) l -> dget d k = Some v -> has_form f v.
(** a provider that says which scopes it supports, supports openid *)
Definition openid_supported (c : cls) (d : dict value) : Prop :=
  forall v, subclass c C_oidc_ProviderConfigurationResponse = true -> dget d (u "scopes_supported") = Some v -> py_in (VStr (u "openid")) v = Ok true.
(** no token comes with the message *)
Definition tokenless (d : dict value) : Prop :=
  forall k, In k [u "id_token"; u "id_token_hint"; u "request"; u "logout_token"] -> dget d k = None.
(** the arguments of verify() are numbers and texts; no algorithm is asked for *)
Definition usual_args (K : kwargs) : Prop :=
  (forall k v, In k [u "skew"; u "nonce_storage_time"] -> kget K k = Some v -> has_form Number v) /\
  (forall k v, In k [u "client_id"; u "aud"] -> kget K k = Some v -> is_text v) /\
  kget K (u "allowed_sign_alg") = None.
(** the classes of identity assurance with a verify() of their own *)
Definition assurance (c : cls) : bool :=
  subclass c C_ida_Evidence || subclass c C_ida_VerificationElementRequest || subclass c C_ida_VerifiedClaimsRequest || subclass c C_ida_IDAClaimsRequest.
(** the classes with claims that are numbers or objects: their instances come in tokens *)
Definition comes_in_token (c : cls) : bool :=
  subclass c C_oidc_IdToken || subclass c C_oidc_JsonWebToken || subclass c C_session_LogoutToken.
