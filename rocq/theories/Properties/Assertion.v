(** C154: assertions of clients. *)
From Coq Require Import List NArith ZArith Bool String.
From Verif Require Import Base.Ustr Model.Cls Model.Value Model.Pspec Model.Tables Model.Message Model.Env Model.Verify Model.Jose
  Spec.MessageSpec Spec.RoundTripSpec Spec.VerifySpec Spec.JoseSpec Spec.FlowSpec Spec.AssertionSpec
  Proofs.AssertionLemmas Proofs.JoseSamples Proofs.FlowSamples Proofs.AssertionSamples.
Import ListNotations.
Open Scope list_scope.
Open Scope N_scope.

(** The token request with the assertion is accepted and the server has the assertion ... *)
Theorem C154_sent : forall F tok, flow_ok F -> text tok -> forall E K hdr,
  exists t d, to_urlencoded (cdef C_oidc_AccessTokenRequest) false (assertion_request F tok) = Ok t /\
    from_urlencoded (cdef C_oidc_AccessTokenRequest) (cd_default (cdef C_oidc_AccessTokenRequest)) t = (d, Ok tt) /\
    verify E K hdr C_oidc_AccessTokenRequest d = (d, Ok true) /\ forall k, dget d k = dget (assertion_request F tok) k.
Proof. exact assertion_sent. Qed.
Print Assumptions C154_sent.

(** ... of the one type there is, ... *)
Theorem C154_type : forall E K hdr d t, verify E K hdr C_oidc_AccessTokenRequest d = (d, Ok true) ->
  dget d (u "client_assertion_type") = Some (VStr t) -> t = [] \/ t = u "urn:ietf:params:oauth:client-assertion-type:jwt-bearer".
Proof. exact assertion_typed. Qed.
Print Assumptions C154_type.

(** ... reads from it what the client signed and accepts it exactly if it is one of the audiences, the assertion
    is of the client it asks for, and it is between issue and expiry up to the skew. *)
Theorem C154_accepted : forall client auds jti iat exp, assertion_ok client auds jti exp ->
  forall J P E i alg keys life args d1 tok me cl skew,
  to_jwt J P C_oidc_AuthnToken (assertion client auds jti iat exp) keys alg life = (d1, Ok tok) -> reads_signed J E alg keys -> trusts E i args tok ->
  exists d h, from_jwt E i (cdef C_oidc_AuthnToken) tok true true args = Ok (d, Some h) /\
    (forall k, dget d k = dget (assertion client auds jti iat exp) k) /\
    forall hdr, (verify E (server_args me cl skew) hdr C_oidc_AuthnToken d = (d, Ok true) <->
      In me auds /\ cl = client /\ (iat <= e_now E + skew)%Z /\ (e_now E - skew <= exp)%Z).
Proof. exact assertion_accepted. Qed.
Print Assumptions C154_accepted.

(** In general, a signed JWT of one of these classes is accepted exactly if what was signed keeps the rules. *)
Theorem C154_signed : forall J P E K i c d alg keys life args d1 tok, subclass c C_oidc_JsonWebToken = true ->
  content canon (cd_param (cdef c)) d -> to_jwt J P c d keys alg life = (d1, Ok tok) -> reads_signed J E alg keys -> trusts E i args tok ->
  exists d' h, from_jwt E i (cdef c) tok true true args = Ok (d', Some h) /\ (forall k, dget d' k = dget d k) /\
    forall hdr, (verify E K hdr c d' = (d', Ok true) <-> table_ok (cdef c) d /\ jwt_rules (e_now E) K d).
Proof. exact signed_accepted. Qed.
Print Assumptions C154_signed.

Example C154_case : flow_ok fl /\ text as_token /\ assertion_ok (u "rp & co") [u "https://op"; u "https://op/token"] (u "j1") 1300 /\
  to_jwt toy (toy_env 1000) C_oidc_AuthnToken as_claims [7] (u "RS256") (VInt 0) = (as_claims, Ok as_token) /\
  reads_signed toy (toy_env 1200) (u "RS256") [7] /\ trusts (toy_env 1200) 0 [] as_token /\
  let run now me cl skew := match from_jwt (toy_env now) 0 (cdef C_oidc_AuthnToken) as_token true true [] with
    | Ok (d, _) => snd (verify (toy_env now) (server_args me cl skew) None C_oidc_AuthnToken d) | Err e => Err e end in
  run 1200%Z (u "https://op/token") (u "rp & co") 0%Z = Ok true /\ run 1310%Z (u "https://op/token") (u "rp & co") 0%Z = Err EEXPError /\
  run 1310%Z (u "https://op/token") (u "rp & co") 10%Z = Ok true /\ run 1200%Z (u "https://other") (u "rp & co") 0%Z = Err ENotForMe /\
  run 1200%Z (u "https://op") (u "rp") 0%Z = Err EValueError /\ run 999%Z (u "https://op") (u "rp & co") 0%Z = Err EEXPError.
Proof.
  split; [exact fl_ok|]. split; [split; [vm_compute; reflexivity|discriminate]|]. split; [exact as_ok|]. split; [vm_compute; reflexivity|].
  split; [apply toy_reads|]. split; [apply as_trusted|]. repeat split; vm_compute; reflexivity.
Qed.
