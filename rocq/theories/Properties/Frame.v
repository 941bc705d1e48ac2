(** C128: what verify() changes in a message. *)
From Coq Require Import List NArith ZArith Bool String.
From Verif Require Import Base.Ustr Model.Cls Model.Value Model.Pspec Model.Tables Model.Message Model.Env Model.Verify
  Spec.MessageSpec Spec.VerifySpec Spec.AgainSpec Spec.FrameSpec Proofs.Samples Proofs.FrameLemmas Proofs.FrameSamples.
Import ListNotations.
Open Scope list_scope.
Open Scope N_scope.

(** C128: whatever the outcome, the entries of the message stay in their order, but for the names that
    the class writes ... *)
Theorem C128_frame_partial : forall E K hdr c d d' r, verify E K hdr c d = (d', r) ->
  (takes_request c = true -> dget d (u "request") = None) -> only_changed (may_write c) d d'.
Proof. exact c128. Qed.
Print Assumptions C128_frame_partial.

(** ... values that a registration has are not overwritten ... *)
Theorem C128_registration_partial : forall E K hdr d d' r k v, verify E K hdr C_oidc_RegistrationRequest d = (d', r) ->
  dget d k = Some v -> dget d' k = Some v.
Proof. exact c128_registration. Qed.
Print Assumptions C128_registration_partial.

(** ... and with a request object, only what that has, if its signature was checked, takes the place of
    the parameters ... *)
Theorem C128_object_partial : forall E K hdr c d d' r, subclass c C_oidc_AuthorizationRequest = true -> verify E K hdr c d = (d', r) ->
  only_changed (may_write c) d d' \/
  exists t ro, dget d (u "request") = Some (VStr t) /\ decoded E 0 C_oidc_OpenIDRequest t ro /\ signature_checked E t /\
    forall k, ~ may_write c k -> dget d' k = dget ro k.
Proof. exact c128_object. Qed.
Print Assumptions C128_object_partial.

(** ... and the requests of OAuth 2.0 that are refused stay as they were but for the slot. *)
Theorem C128_secured_partial : forall E K hdr c d d' e,
  subclass c C_oauth2_JWTSecuredAuthorizationRequest = true \/ subclass c C_oauth2_PushedAuthorizationRequest = true ->
  verify E K hdr c d = (d', Err e) -> only_changed (fun k => k = u "__verified_request") d d'.
Proof. exact c128_secured. Qed.
Print Assumptions C128_secured_partial.

(** An OpenID Connect request that is refused has been changed: its redirect_uri and state are gone,
    although the error has to be reported to them. *)
Theorem C128_refused_refuted : exists d d',
  verify fr_env (with_jar []) None C_oidc_AuthorizationRequest d = (d', Err EMissingRequiredValue) /\
  dget d (u "redirect_uri") = Some (VStr (u "https://rp/other")) /\ dget d' (u "redirect_uri") = Some (VStr (u "https://rp/cb")) /\
  dget d (u "state") = Some (VStr (u "s1")) /\ dget d' (u "state") = None /\ ~ only_changed (may_write C_oidc_AuthorizationRequest) d d'.
Proof.
  exists fr_request, fr_request1. split; [vm_compute; reflexivity|]. split; [reflexivity|]. split; [reflexivity|].
  split; [reflexivity|]. split; [reflexivity|]. exact fr_changed.
Qed.
Print Assumptions C128_refused_refuted.

Example C128_case :
  let V c d := verify sample (with_jar []) None c d in
  V C_oidc_RegistrationRequest fr_registration = (fr_registration1, Err EValueError) /\
  fr_registration1 = fr_registration ++ [(u "id_token_encrypted_response_enc", VStr (u "A128CBC-HS256"))] /\
  may_write C_oidc_RegistrationRequest (u "id_token_encrypted_response_enc") /\
  ~ may_write C_oidc_RegistrationRequest (u "id_token_encrypted_response_alg") /\
  (takes_request C_oidc_AccessTokenResponse = true -> dget (token_response "id.signed") (u "request") = None) /\
  snd (V C_oidc_AccessTokenResponse (token_response "id.signed")) = Ok true /\
  fst (V C_oidc_AccessTokenResponse (token_response "id.signed")) <> token_response "id.signed" /\
  V C_oauth2_JWTSecuredAuthorizationRequest [(u "request", VStr (u "req.forged")); (u "__verified_request", VInt 1)] =
    ([(u "request", VStr (u "req.forged"))], Err EJSONDecodeError).
Proof.
  cbv zeta. split; [vm_compute; reflexivity|]. split; [reflexivity|]. split; [apply may_writeb_iff; vm_compute; reflexivity|].
  split; [rewrite <- may_writeb_iff; vm_compute; discriminate|]. split; [vm_compute; discriminate|]. split; [vm_compute; reflexivity|].
  split; [vm_compute; discriminate|]. vm_compute. reflexivity.
Qed.
