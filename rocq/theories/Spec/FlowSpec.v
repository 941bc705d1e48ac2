(** An authorization code flow and a hybrid flow of OpenID Connect Core: what client and provider send each other. *)
From Coq Require Import List NArith ZArith Bool String.
From Verif Require Import Base.Ustr Model.Cls Model.Value Model.Env Spec.CodecSpec Spec.RoundTripSpec.
Import ListNotations.
Open Scope list_scope.
Open Scope N_scope.

Record flow := { f_client : ustr; f_redirect : ustr; f_scopes : list ustr; f_state : ustr; f_nonce : ustr;
  f_code : ustr; f_token : ustr; f_issuer : ustr; f_subject : ustr }.
Definition text (t : ustr) : Prop := scalars t = true /\ t <> [].
(** any texts; scope values are words; to ask for offline access takes a prompt *)
Record flow_ok (F : flow) : Prop := {
  fk_texts : forall t, In t [f_client F; f_redirect F; f_state F; f_nonce F; f_code F; f_token F; f_issuer F; f_subject F] -> text t;
  fk_scopes : forall s, In s (f_scopes F) -> text s /\ ~ In 32 s;
  fk_offline : ~ In (u "offline_access") (f_scopes F) }.

Definition scope_of (F : flow) : value := VList (map VStr (u "openid" :: f_scopes F)).
(** client to provider, by the browser (3.1.2.1, 3.3.2.1) *)
Definition auth_request (F : flow) (types : list ustr) : dict value :=
  [(u "response_type", VList (map VStr types)); (u "client_id", VStr (f_client F)); (u "redirect_uri", VStr (f_redirect F));
   (u "scope", scope_of F); (u "state", VStr (f_state F)); (u "nonce", VStr (f_nonce F))].
(** provider to client, by the browser (3.1.2.5; RFC 9207) *)
Definition auth_response (F : flow) : dict value :=
  [(u "code", VStr (f_code F)); (u "state", VStr (f_state F)); (u "client_id", VStr (f_client F)); (u "iss", VStr (f_issuer F))].
(** client to token endpoint (3.1.3.1) *)
Definition token_request (F : flow) : dict value :=
  [(u "grant_type", VStr (u "authorization_code")); (u "code", VStr (f_code F)); (u "redirect_uri", VStr (f_redirect F));
   (u "client_id", VStr (f_client F))].
(** the claims of the ID Token (2) *)
Definition token_claims (F : flow) : dict value :=
  [(u "iss", VStr (f_issuer F)); (u "sub", VStr (f_subject F)); (u "aud", VList [VStr (f_client F)]); (u "nonce", VStr (f_nonce F))].
(** token endpoint to client (3.1.3.3) *)
Definition token_response (F : flow) (tok : ustr) : dict value :=
  [(u "access_token", VStr (f_token F)); (u "token_type", VStr (u "Bearer")); (u "id_token", VStr tok)].
(** the hybrid flow (3.3.2.5, 3.3.2.11): everything at once; the ID Token is made for the code and the access token *)
Definition hybrid_claims (F : flow) : dict value :=
  token_claims F ++ [(u "access_token", VStr (f_token F)); (u "code", VStr (f_code F))].
Definition hybrid_response (F : flow) (tok : ustr) : dict value :=
  auth_response F ++ token_response F tok.
(** what the client calls verify() with *)
Definition client_args (F : flow) : kwargs :=
  {| kw := [(u "iss", VStr (f_issuer F)); (u "client_id", VStr (f_client F)); (u "nonce", VStr (f_nonce F))]; kw_jar := true |}.
