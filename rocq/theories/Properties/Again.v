(** C121: verify() of a message that has been verified. *)
From Coq Require Import List NArith ZArith Bool String.
From Verif Require Import Base.Ustr Model.Cls Model.Value Model.Pspec Model.Tables Model.Message Model.Env Model.Verify
  Spec.MessageSpec Spec.VerifySpec Spec.AgainSpec Proofs.Samples Proofs.AgainLemmas Proofs.IdaAgain Proofs.AgainSamples.
Import ListNotations.
Open Scope list_scope.
Open Scope N_scope.

(** C121: what verify() leaves of a message without a request object is verified with the same outcome, be it a verdict or an
    exception, and is not changed any more.  Missing: messages with a request object (refuted below). *)
Theorem C121_again_partial : forall E K hdr c d d' r, (takes_request c = true -> dget d (u "request") = None) ->
  verify E K hdr c d = (d', r) -> verify E K hdr c d' = (d', r).
Proof. exact again_all. Qed.
Print Assumptions C121_again_partial.

Example C121_again_case :
  let d := [(u "redirect_uris", VList [VStr (u "https://rp/cb")]); (u "id_token_encrypted_response_alg", VStr (u "RSA1_5"))] in
  exists d', verify sample (with_jar []) None C_oidc_RegistrationRequest d = (d', Ok true) /\ d' <> d /\
    takes_request C_oidc_RegistrationRequest = false /\ takes_request C_oidc_AuthorizationRequest = true /\
    verify sample (with_jar []) None C_oidc_RegistrationRequest d' = (d', Ok true).
Proof.
  cbv zeta. eexists. split; [vm_compute; reflexivity|]. split; [discriminate|]. repeat split; vm_compute; reflexivity.
Qed.

Example C121_again_case_ida : let d := [(u "verified_claims", VDict [(u "verification", VDict [(u "trust_framework", VNone)]); (u "claims", VDict [(u "given_name", VNone)])])] in
  exists d', verify sample (with_jar []) None C_ida_IDAClaimsRequest d = (d', Ok false) /\ d' <> d /\ takes_request C_ida_IDAClaimsRequest = false /\
    verify sample (with_jar []) None C_ida_IDAClaimsRequest d' = (d', Ok false).
Proof.
  cbv zeta. eexists. split; [vm_compute; reflexivity|]. split; [discriminate|]. split; vm_compute; reflexivity.
Qed.

(** With a request object: a request secured by a JWT is refused the second time, its request object being gone ... *)
Theorem C121_secured : forall E K hdr d d' r, verify E K hdr C_oauth2_JWTSecuredAuthorizationRequest d = (d', Ok true) ->
  dget d (u "request") = Some r -> dget d' (u "request") = None -> dget d' (u "request_uri") = None ->
  verify E K hdr C_oauth2_JWTSecuredAuthorizationRequest d' = (d', Err EMissingAttribute).
Proof. exact secured_once. Qed.
Print Assumptions C121_secured.

(** ... and an OpenID Connect request that is accepted a second time has lost the verified request object. *)
Theorem C121_forgotten : forall E K hdr c d d' t, subclass c C_oidc_AuthorizationRequest = true ->
  verify E K hdr c d = (d', Ok true) -> dget d (u "request") = Some (VStr t) -> dget d' (u "request") = None ->
  dget d' (u "__verified_request") <> None /\
  forall d'' b, verify E K hdr c d' = (d'', Ok b) -> dget d'' (u "__verified_request") = None.
Proof. exact request_forgotten. Qed.
Print Assumptions C121_forgotten.

Example C121_forgotten_case : let A := verify sample (with_jar []) None C_oidc_AuthorizationRequest in
  A (ag_request (u "req.signed")) = (ag_signed1, Ok true) /\ dget ag_signed1 (u "request") = None /\ A ag_signed1 = (ag_signed2, Ok true) /\
  dget ag_signed1 (u "client_id") = dget ag_signed2 (u "client_id").
Proof. cbv zeta. repeat split; vm_compute; reflexivity. Qed.
Example C121_secured_case : let V := verify sample (with_jar []) None C_oauth2_JWTSecuredAuthorizationRequest in
  V ag_secured = (ag_secured1, Ok true) /\ dget ag_secured (u "request") = Some (VStr (u "req.signed")) /\
  dget ag_secured1 (u "request") = None /\ dget ag_secured1 (u "request_uri") = None.
Proof. cbv zeta. repeat split; vm_compute; reflexivity. Qed.

(** So the claim for all messages is false. *)
Theorem C121_again_refuted :
  (exists d d', verify sample (with_jar []) None C_oauth2_JWTSecuredAuthorizationRequest d = (d', Ok true) /\
     verify sample (with_jar []) None C_oauth2_JWTSecuredAuthorizationRequest d' = (d', Err EMissingAttribute)) /\
  (exists d d' d'', verify sample (with_jar []) None C_oidc_AuthorizationRequest d = (d', Ok true) /\
     verify sample (with_jar []) None C_oidc_AuthorizationRequest d' = (d'', Ok true) /\
     dget d' (u "__verified_request") <> None /\ dget d'' (u "__verified_request") = None) /\
  (exists d d' e, verify sample (with_jar []) None C_oidc_AuthorizationRequest d = (d', Ok true) /\
     verify sample (with_jar []) None C_oidc_AuthorizationRequest d' = (d', Err e)).
Proof.
  split; [|split].
  - exists ag_secured, ag_secured1. split; vm_compute; reflexivity.
  - exists (ag_request (u "req.signed")), ag_signed1, ag_signed2.
    split; [vm_compute; reflexivity|]. split; [vm_compute; reflexivity|]. split; [discriminate|reflexivity].
  - exists (ag_request (u "req.noclient")), ag_noclient1, EMissingRequiredAttribute. split; vm_compute; reflexivity.
Qed.
Print Assumptions C121_again_refuted.
