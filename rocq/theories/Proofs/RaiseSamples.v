(** Samples of received messages that verify() refuses. *)
From Coq Require Import List NArith ZArith QArith Bool String.
From Verif Require Import Base.Ustr Model.Cls Model.Value Model.Pspec Model.Tables Model.Message Model.Env Model.Verify
  Spec.ErrorSpec Spec.RaiseSpec Proofs.Samples Proofs.RaiseLemmas.
Import ListNotations.
Open Scope list_scope.
Open Scope N_scope.

(** one more token: a JWT without alg in its header *)
Definition ra_env : env := {|
  e_now := e_now sample;
  e_jws := fun v => match v with
                    | VStr s => if ueqb s (u "no.alg") then Ok (Some (tok_of [] idt_claims)) else e_jws sample v
                    | _ => e_jws sample v
                    end;
  e_jwe := e_jwe sample; e_kj_true := e_kj_true sample; e_kj_in := e_kj_in sample; e_kj_keys := e_kj_keys sample;
  e_kj_update := e_kj_update sample; e_sig := e_sig sample; e_lhash := e_lhash sample; e_repr := e_repr sample;
  e_netloc_ok := e_netloc_ok sample |}.
(** what a receiver gets: read a JSON text, then verify *)
Definition read_verify (c : cls) (t : string) : option (res bool) :=
  match from_json (cdef c) (cd_default (cdef c)) (u t) with
  | (d, Ok _) => Some (snd (verify ra_env (with_jar []) None c d))
  | _ => None
  end.
Lemma raise_refuted : ~ anticipated ETypeError /\ ~ anticipated EKeyError /\ ~ anticipated EAttributeError /\
  read_verify C_oidc_AccessTokenResponse "{""access_token"":""a"",""token_type"":""Bearer"",""error_description"":null}" = Some (Err ETypeError) /\
  read_verify C_oidc_OpenIDSchema "{""sub"":""diana"",""birthdate"":null}" = Some (Err ETypeError) /\
  read_verify C_oidc_JsonWebToken "{""exp"":null}" = Some (Err ETypeError) /\
  read_verify C_oidc_AuthnToken
    "{""iss"":""rp"",""sub"":""rp"",""aud"":[""https://op""],""jti"":""1"",""exp"":2000,""nbf"":""900""}" = Some (Err ETypeError) /\
  read_verify C_oidc_ProviderConfigurationResponse
    "{""issuer"":""https://op"",""authorization_endpoint"":""https://op/a"",""jwks_uri"":""https://op/j"",""response_types_supported"":[""code""],""subject_types_supported"":[""public""],""id_token_signing_alg_values_supported"":[""RS256""],""scopes_supported"":[""email""]}"
    = Some (Err ETypeError) /\
  read_verify C_oidc_AccessTokenResponse "{""access_token"":""a"",""token_type"":""Bearer"",""id_token"":""no.alg""}" = Some (Err EKeyError) /\
  read_verify C_oidc_AuthorizationRequest
    "{""response_type"":""code"",""client_id"":""rp"",""scope"":""openid"",""redirect_uri"":""https://rp/cb"",""request"":""[]""}" = Some (Err EAttributeError) /\
  read_verify C_session_LogoutToken
    "{""iss"":""https://op"",""sub"":""diana"",""aud"":[""rp""],""iat"":900,""jti"":""1"",""events"":""[1]""}" = Some (Err EAttributeError).
Proof.
  assert (N : forall e, existsb (fun x => if exn_eq_dec x e then true else false) SA = false -> ~ anticipated e).
  { intros e H A. assert (X : In e SA) by (unfold anticipated in A; cbn [In SA] in *; tauto).
    assert (Y : existsb (fun x => if exn_eq_dec x e then true else false) SA = true) by (apply existsb_exists; exists e; split; [exact X|destruct (exn_eq_dec e e); congruence]).
    congruence. }
  split; [apply N; vm_compute; reflexivity|]. split; [apply N; vm_compute; reflexivity|]. split; [apply N; vm_compute; reflexivity|].
  repeat split; vm_compute; reflexivity.
Qed.

Definition ra_request : dict value := Eval vm_compute in fst (from_urlencoded (cdef C_oidc_AuthorizationRequest) []
  (u "response_type=code&client_id=rp&scope=openid&redirect_uri=https://rp/cb&prompt=none+login&exp=x")).
Lemma ra_usual : usual_args (with_jar [(u "nonce", VStr (u "n"))]).
Proof.
  split; [|split; [|reflexivity]]; intros k v Hk Hv; cbn [In] in Hk; destruct Hk as [<-|[<-|[]]]; discriminate.
Qed.
Lemma ra_expected : as_expected C_oidc_AuthorizationRequest ra_request.
Proof.
  eapply (query_expected _ (u "response_type=code&client_id=rp&scope=openid&redirect_uri=https://rp/cb&prompt=none+login&exp=x")); [reflexivity|vm_compute; reflexivity].
Qed.
