(** C101, C102: required parameters. *)
From Coq Require Import List NArith ZArith Bool String.
From Verif Require Import Base.Ustr Model.Cls Model.Value Model.Pspec Model.Tables Model.Message Model.Env Model.Verify
  Spec.MessageSpec Spec.VerifySpec Spec.RequiredSpec Proofs.RequiredLemmas Proofs.Samples.
Import ListNotations.
Open Scope list_scope.
Open Scope N_scope.

(** C101: verify of a device access token request ends normally (with None, here false) exactly if the
    table of the class is respected and a request with device_code has grant_type and client_id as well.
    Missing: that requests as in RFC 8628 3.4 are accepted (refuted below). *)
Theorem C101_device_request_partial : forall E K hdr d,
  (verify E K hdr C_device_AccessTokenRequest d = (d, Ok false) <->
   table_ok (cdef C_device_AccessTokenRequest) d /\
   (dget d (u "device_code") <> None -> dget d (u "grant_type") <> None /\ dget d (u "client_id") <> None)) /\
  forall d' e, verify E K hdr C_device_AccessTokenRequest d = (d', Err e) ->
    d' = d /\ (e = EMissingRequiredAttribute \/ e = ENotAllowedValue).
Proof. exact device_ends. Qed.
Print Assumptions C101_device_request_partial.

Example C101_case :
  let run d := snd (verify sample (with_jar []) None C_device_AccessTokenRequest d) in
  let d := [(u "grant_type", VStr (u "g")); (u "code", VStr (u "c")); (u "redirect_uri", VStr (u "r"))] in
  run d = Ok false /\
  run (d ++ [(u "device_code", VStr (u "x"))]) = Err EMissingRequiredAttribute /\
  run (d ++ [(u "device_code", VStr (u "x")); (u "client_id", VStr (u "y"))]) = Ok false.
Proof. vm_compute. repeat split; reflexivity. Qed.

(** no request is accepted with True, and one without an authorization code is always refused, although
    RFC 8628 3.4 knows grant_type, device_code and client_id only *)
Theorem C101_accepted_refuted : forall E K hdr,
  (forall d, snd (verify E K hdr C_device_AccessTokenRequest d) <> Ok true) /\
  forall d, dget d (u "code") = None ->
    verify E K hdr C_device_AccessTokenRequest d = (d, Err EMissingRequiredAttribute).
Proof. intros E K hdr. split; [exact (device_never E K hdr)|exact (device_code_missing E K hdr)]. Qed.
Print Assumptions C101_accepted_refuted.

Example C101_rfc8628 :
  let d := [(u "grant_type", VStr (u "urn:ietf:params:oauth:grant-type:device_code"));
            (u "device_code", VStr (u "GmRhmhcxhwAzkoEqiMEg_DnyEysNkuNhszIySk9eS")); (u "client_id", VStr (u "1406020730"))] in
  dget d (u "code") = None /\
  verify sample (with_jar []) None C_device_AccessTokenRequest d = (d, Err EMissingRequiredAttribute).
Proof. vm_compute. repeat split; reflexivity. Qed.

(** C102: a message that verify() accepts has the parameters the specifications require, and one without
    such a parameter is refused. Missing: the parameters of spec_required_more (refuted below). *)
Theorem C102_required_partial : forall E K hdr c l a d, In (c, l) spec_required -> In a l ->
  (forall d', verify E K hdr c d = (d', Ok true) -> has_parameter d a) /\
  (~ has_parameter d a ->
   exists e, verify E K hdr c d = (d, Err e) /\ (e = EMissingRequiredAttribute \/ e = ENotAllowedValue)).
Proof.
  intros E K hdr c l a d Hc Ha. split; [intro d'; exact (c102 E K hdr c l a d d' Hc Ha)|].
  exact (c102_error E K hdr c l a d Hc Ha).
Qed.
Print Assumptions C102_required_partial.

Example C102_case :
  In (C_oauth2_TokenExchangeRequest, [u "grant_type"; u "subject_token"; u "subject_token_type"]) spec_required /\
  let run d := snd (verify sample (with_jar []) None C_oauth2_TokenExchangeRequest d) in
  run [(u "grant_type", VStr (u "urn:ietf:params:oauth:grant-type:token-exchange")); (u "subject_token", VStr (u "a"));
       (u "subject_token_type", VStr (u "b"))] = Ok true /\
  run [(u "grant_type", VStr (u "urn:ietf:params:oauth:grant-type:token-exchange"));
       (u "subject_token_type", VStr (u "b"))] = Err EMissingRequiredAttribute.
Proof. vm_compute. split; [tauto|]. split; reflexivity. Qed.

(** messages without the other required parameters are accepted *)
Theorem C102_more_refuted : forall c a, In (c, a) spec_required_more ->
  exists d, ~ has_parameter d a /\ forall E K hdr, verify E K hdr c d = (d, Ok true).
Proof.
  intros c a H. exists (lacking c). split; [exact (proj2 (lacking_accepted sample (with_jar []) None c a H))|].
  intros E K hdr. exact (proj1 (lacking_accepted E K hdr c a H)).
Qed.
Print Assumptions C102_more_refuted.
