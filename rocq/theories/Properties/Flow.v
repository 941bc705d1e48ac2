(** C139, C140: honest code and hybrid flows. *)
From Coq Require Import List NArith ZArith Bool String.
From Verif Require Import Base.Ustr Model.Cls Model.Value Model.Pspec Model.Tables Model.Json Model.Message Model.Env Model.Verify Model.Jose
  Spec.MessageSpec Spec.RoundTripSpec Spec.VerifySpec Spec.JoseSpec Spec.FlowSpec Proofs.FlowLemmas Proofs.JoseSamples Proofs.FlowSamples.
Import ListNotations.
Open Scope list_scope.
Open Scope N_scope.

(** C139: the steps of an honest code flow.  The provider accepts the request of the client and has its parameters, ... *)
Theorem C139_request : forall F, flow_ok F -> forall E K hdr types, In types [[u "code"]; [u "code"; u "id_token"; u "token"]] ->
  (forall m, kget K (u "nonce") = Some m -> m = VStr (f_nonce F)) ->
  exists t d d', to_urlencoded (cdef C_oidc_AuthorizationRequest) false (auth_request F types) = Ok t /\
    from_urlencoded (cdef C_oidc_AuthorizationRequest) (cd_default (cdef C_oidc_AuthorizationRequest)) t = (d, Ok tt) /\
    verify E K hdr C_oidc_AuthorizationRequest d = (d', Ok true) /\
    forall k, In k (map fst (auth_request F types)) -> dget d' k = dget (auth_request F types) k.
Proof. exact flow_request. Qed.
Print Assumptions C139_request.

(** ... the client accepts the response and has the code, ... *)
Theorem C139_response : forall F, flow_ok F -> forall E hdr,
  exists t d d', to_urlencoded (cdef C_oidc_AuthorizationResponse) false (auth_response F) = Ok t /\
    from_urlencoded (cdef C_oidc_AuthorizationResponse) (cd_default (cdef C_oidc_AuthorizationResponse)) t = (d, Ok tt) /\
    verify E (client_args F) hdr C_oidc_AuthorizationResponse d = (d', Ok true) /\
    forall k, In k (map fst (auth_response F)) -> dget d' k = dget (auth_response F) k.
Proof. exact flow_response. Qed.
Print Assumptions C139_response.

(** ... the provider accepts the token request and has the code, ... *)
Theorem C139_token_request : forall F, flow_ok F -> forall E K hdr,
  exists t d, to_urlencoded (cdef C_oidc_AccessTokenRequest) false (token_request F) = Ok t /\
    from_urlencoded (cdef C_oidc_AccessTokenRequest) (cd_default (cdef C_oidc_AccessTokenRequest)) t = (d, Ok tt) /\
    verify E K hdr C_oidc_AccessTokenRequest d = (d, Ok true) /\ forall k, dget d k = dget (token_request F) k.
Proof. exact flow_token_request. Qed.
Print Assumptions C139_token_request.

(** ... and the client accepts the tokens and has the claims of the provider about the subject. *)
Theorem C139_tokens : forall F, flow_ok F -> forall J P E alg h keys lifetime tok, text tok -> hash_of_alg alg h -> forall d1 hdr,
  to_jwt J P C_oidc_IdToken (token_claims F) keys alg (VInt lifetime) = (d1, Ok tok) ->
  partners J P E (client_args F) alg keys lifetime (token_claims F) tok ->
  exists t d d' idt, to_json (cdef C_oidc_AccessTokenResponse) (token_response F tok) = Ok t /\
    from_json (cdef C_oidc_AccessTokenResponse) (cd_default (cdef C_oidc_AccessTokenResponse)) t = (d, Ok tt) /\
    verify E (client_args F) hdr C_oidc_AccessTokenResponse d = (d', Ok true) /\
    dget d (u "access_token") = Some (VStr (f_token F)) /\
    dget d' (u "__verified_id_token") = Some (VMsg C_oidc_IdToken idt) /\
    dget idt (u "exp") = Some (VInt (e_now P + lifetime)) /\
    forall k, In k (map fst (token_claims F)) -> dget idt k = dget (token_claims F) k.
Proof. exact flow_tokens. Qed.
Print Assumptions C139_tokens.

Example C139_case : flow_ok fl /\
  to_urlencoded (cdef C_oidc_AuthorizationRequest) false (auth_request fl [u "code"]) =
    Ok (u "response_type=code&client_id=rp+%26+co&redirect_uri=https%3A%2F%2Frp%2Fcb%3Fx%3D1%26y%3D2&scope=openid+email+phone&state=%C3%A9+%F0%9F%98%80&nonce=n0") /\
  to_urlencoded (cdef C_oidc_AuthorizationResponse) false (auth_response fl) =
    Ok (u "code=co%3D1&state=%C3%A9+%F0%9F%98%80&client_id=rp+%26+co&iss=https%3A%2F%2Fop") /\
  text fl_token /\ to_jwt toy (toy_env 1000) C_oidc_IdToken (token_claims fl) [7] (u "RS256") (VInt 600) = (fl_d1, Ok fl_token) /\
  partners toy (toy_env 1000) (toy_env 1500) (client_args fl) (u "RS256") [7] 600 (token_claims fl) fl_token /\
  snd (verify (toy_env 1500) (client_args fl) None C_oidc_AccessTokenResponse (token_response fl fl_token)) = Ok true /\
  snd (verify (toy_env 1601) (client_args fl) None C_oidc_AccessTokenResponse (token_response fl fl_token)) = Err EEXPError.
Proof.
  split; [exact fl_ok|]. split; [vm_compute; reflexivity|]. split; [vm_compute; reflexivity|]. split; [split; [vm_compute; reflexivity|discriminate]|].
  split; [vm_compute; reflexivity|]. split; [exact fl_partners|]. split; vm_compute; reflexivity.
Qed.

(** C140: in the hybrid flow the client accepts the response with code and tokens, and the ID Token has their hashes. *)
Theorem C140_hybrid : forall F, flow_ok F -> forall J P E alg h keys lifetime tok, text tok -> hash_of_alg alg h -> forall d1 hdr,
  hashable P h (VStr (f_token F)) -> hashable P h (VStr (f_code F)) ->
  to_jwt J P C_oidc_IdToken (hybrid_claims F) keys alg (VInt lifetime) = (d1, Ok tok) ->
  partners J P E (client_args F) alg keys lifetime (hybrid_claims F) tok ->
  exists t d d' idt, to_urlencoded (cdef C_oidc_AuthorizationResponse) false (hybrid_response F tok) = Ok t /\
    from_urlencoded (cdef C_oidc_AuthorizationResponse) (cd_default (cdef C_oidc_AuthorizationResponse)) t = (d, Ok tt) /\
    verify E (client_args F) hdr C_oidc_AuthorizationResponse d = (d', Ok true) /\
    (forall k, dget d k = dget (hybrid_response F tok) k) /\
    dget d' (u "__verified_id_token") = Some (VMsg C_oidc_IdToken idt) /\
    dget idt (u "exp") = Some (VInt (e_now P + lifetime)) /\
    (exists x, e_lhash P (VStr (f_token F)) h = Ok x /\ dget idt (u "at_hash") = Some x) /\
    (exists x, e_lhash P (VStr (f_code F)) h = Ok x /\ dget idt (u "c_hash") = Some x) /\
    forall k, In k (map fst (token_claims F)) -> dget idt k = dget (token_claims F) k.
Proof. exact flow_hybrid. Qed.
Print Assumptions C140_hybrid.

Example C140_case : flow_ok fl /\ hash_of_alg (u "RS256") (u "HS256") /\ text fl_hybrid_token /\
  hashable (toy_env 1000) (u "HS256") (VStr (f_token fl)) /\ hashable (toy_env 1000) (u "HS256") (VStr (f_code fl)) /\
  to_jwt toy (toy_env 1000) C_oidc_IdToken (hybrid_claims fl) [7] (u "RS256") (VInt 600) = (fl_hybrid_d1, Ok fl_hybrid_token) /\
  partners toy (toy_env 1000) (toy_env 1500) (client_args fl) (u "RS256") [7] 600 (hybrid_claims fl) fl_hybrid_token /\
  snd (verify (toy_env 1500) (client_args fl) None C_oidc_AuthorizationResponse (hybrid_response fl fl_hybrid_token)) = Ok true /\
  (* the ID Token of the code flow has no hashes *)
  snd (verify (toy_env 1500) (client_args fl) None C_oidc_AuthorizationResponse (hybrid_response fl fl_token)) = Err EMissingRequiredAttribute.
Proof.
  split; [exact fl_ok|]. split; [exists (u "RS"), (u "256"); repeat split; left; reflexivity|]. split; [split; [vm_compute; reflexivity|discriminate]|].
  split; [eexists; split; [reflexivity|]; split; [discriminate|vm_compute; reflexivity]|].
  split; [eexists; split; [reflexivity|]; split; [discriminate|vm_compute; reflexivity]|].
  split; [vm_compute; reflexivity|]. split; [exact fl_hybrid_partners|]. split; vm_compute; reflexivity.
Qed.
