(** verify() at different times. *)
From Coq Require Import List NArith ZArith QArith Qabs Bool String.
From Verif Require Import Base.Ustr Model.Cls Model.Value Model.Env Spec.VerifySpec.
Import ListNotations.
Open Scope list_scope.
Open Scope N_scope.

(** the same environment at the time [t] *)
Definition clock (E : env) (t : Z) : env :=
  {| e_now := t; e_jws := e_jws E; e_jwe := e_jwe E; e_kj_true := e_kj_true E; e_kj_in := e_kj_in E; e_kj_keys := e_kj_keys E;
     e_kj_update := e_kj_update E; e_sig := e_sig E; e_lhash := e_lhash E; e_repr := e_repr E; e_netloc_ok := e_netloc_ok E |}.

(** messages that are an ID Token or may have one *)
Definition has_id_token (c : cls) : bool :=
  existsb (fun b => subclass c b)
    [C_oidc_IdToken; C_oidc_AccessTokenResponse; C_oidc_AuthorizationResponse; C_oidc_MessageWithIdToken; C_session_EndSessionRequest].
(** messages that are a logout token or have one *)
Definition has_logout_token (c : cls) : bool :=
  existsb (fun b => subclass c b) [C_session_LogoutToken; C_session_BackChannelLogoutRequest].
Definition is_jwt (c : cls) : bool := subclass c C_oidc_JsonWebToken.
(** [get_jwt_verify_keys] of the key jar has no use for the skew *)
Definition keys_skewless (E : env) : Prop :=
  forall i b tok a1 a2, (forall k, k <> u "skew" -> dget a1 k = dget a2 k) -> e_kj_keys E i b tok a1 = e_kj_keys E i b tok a2.
(** messages with an ID Token in them *)
Definition with_token (c : cls) (d : dict value) : Prop :=
  subclass c C_oidc_IdToken = true \/
  ((subclass c C_oidc_AccessTokenResponse = true \/ subclass c C_oidc_AuthorizationResponse = true \/ subclass c C_oidc_MessageWithIdToken = true) /\
   dget d (u "id_token") <> None) \/
  (subclass c C_session_EndSessionRequest = true /\ dget d (u "id_token_hint") <> None).

(** the skew is the number [q], whole or not *)
Definition skew_is (K : kwargs) (q : Q) : Prop := exists v, arg K (u "skew") 0 v /\ num_of v = Some q.
(** less than 2^52 seconds, 140 million years *)
Definition moderate (q : Q) : Prop := (Qabs q < inject_Z (2 ^ 52))%Q.
