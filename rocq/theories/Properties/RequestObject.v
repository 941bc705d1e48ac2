(** C113, C114: authorization requests that are in order are accepted, with and without request object. *)
From Coq Require Import List NArith ZArith Bool String.
From Verif Require Import Base.Ustr Model.Cls Model.Value Model.Pspec Model.Tables Model.Message Model.Env Model.Verify Model.RequestObject
  Spec.MessageSpec Spec.RoundTripSpec Spec.VerifySpec Spec.JoseSpec Spec.RequestObjectSpec
  Proofs.Samples Proofs.JoseSamples Proofs.RequestObjectLemmas Proofs.RequestObjectSamples.
Import ListNotations.
Open Scope list_scope.
Open Scope N_scope.

(** C113: a request whose parameters have their declared kinds, without request object and hint, is accepted exactly
    if it has the required parameters with allowed values and keeps the rules; it is left as it was. *)
Theorem C113_rules_exact : forall E K hdr c d, subclass c C_oidc_AuthorizationRequest = true ->
  content canon (cd_param (cdef c)) d -> dget d (u "request") = None -> dget d (u "id_token_hint") = None ->
  ((exists d', verify E K hdr c d = (d', Ok true)) <-> table_ok (cdef c) d /\ authz_rules K d) /\
  (forall d', verify E K hdr c d = (d', Ok true) ->
     forall k, ~ In k [u "__verified_id_token"; u "__verified_id_token_hint"; u "__verified_request"] -> dget d' k = dget d k).
Proof. exact c113. Qed.
Print Assumptions C113_rules_exact.

Example C113_case : content canon (cd_param (cdef C_oidc_AuthorizationRequest)) ro_request /\
  authz_rules ro_args ro_request /\
  verify (toy_env 1500) ro_args None C_oidc_AuthorizationRequest ro_request = (ro_request, Ok true) /\
  snd (verify (toy_env 1500) (with_jar [(u "nonce", VStr (u "n1"))]) None C_oidc_AuthorizationRequest ro_request) = Err EValueError.
Proof.
  split; [exact ro_request_canon|]. split; [exact ro_rules|]. split; vm_compute; reflexivity.
Qed.

(** C114: the object that make_openid_request makes of such a request is accepted as the request parameter of a
    message with parameters of that request; afterwards the message has the parameters of the object: those of the
    request and the claims that the JWT class added. *)
Theorem C114_request_object : forall P E K hdr c arq issuer alg recv jti life tok msg,
  subclass c C_oidc_AuthorizationRequest = true ->
  content canon (cd_param (cdef c)) arq -> authz_rules K arq ->
  (forall k, In k ([u "request"; u "id_token_hint"] ++ jwt_claims) -> dget arq k = None) ->
  make_openid_request P (cdef c) arq issuer alg recv jti life = Ok tok ->
  reads_packed P E issuer alg recv jti (if (life =? 0)%Z then None else Some life) ->
  kw_jar K = true -> (forall args, request_passed K msg args -> alg = u "none" \/ trusts E 0 args tok) ->
  table_ok (cdef c) msg -> dget msg (u "request") = Some (VStr tok) ->
  (forall k v, dget msg k = Some v -> k = u "request" \/ dget arq k = Some v) ->
  exists d' ro, verify E K hdr c msg = (d', Ok true) /\ dget d' (u "__verified_request") = Some (VMsg C_oidc_OpenIDRequest ro) /\
    (forall k, k <> u "__verified_request" -> dget d' k = dget ro k) /\
    (forall k, ~ In k jwt_claims -> dget ro k = dget arq k) /\ dget ro (u "iss") = Some (VStr issuer).
Proof. exact c114. Qed.
Print Assumptions C114_request_object.

Example C114_case :
  make_openid_request toy_packer (cdef C_oidc_AuthorizationRequest) ro_request (u "rp") (u "RS256") (u "https://op") true 300 = Ok ro_token /\
  reads_packed toy_packer (toy_env 1500) (u "rp") (u "RS256") (u "https://op") true (Some 300%Z) /\
  (forall args, request_passed ro_args ro_message args -> u "RS256" = u "none" \/ trusts (toy_env 1500) 0 args ro_token) /\
  table_ok (cdef C_oidc_AuthorizationRequest) ro_message /\
  (forall k v, dget ro_message k = Some v -> k = u "request" \/ dget ro_request k = Some v) /\
  (let '(d', r) := verify (toy_env 1500) ro_args None C_oidc_AuthorizationRequest ro_message in
   r = Ok true /\ dget d' (u "claims") = dget ro_request (u "claims") /\ dget d' (u "request") = None /\
   dget d' (u "iss") = Some (VStr (u "rp")) /\ dget d' (u "exp") = Some (VInt 1300)).
Proof.
  split; [vm_compute; reflexivity|]. split; [apply toy_packer_reads; discriminate|]. split; [exact ro_trusted|].
  split; [apply table_by_compute; vm_compute; reflexivity|]. split; [exact ro_taken|vm_compute; repeat split; reflexivity].
Qed.
