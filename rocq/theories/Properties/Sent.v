(** C165: messages that keep to the specifications are accepted by the one who gets them. *)
From Coq Require Import List NArith ZArith Bool String.
From Verif Require Import Base.Ustr Model.Cls Model.Value Model.Pspec Model.Tables Model.Json Model.Message Model.Env Model.Verify
  Spec.MessageSpec Spec.CodecSpec Spec.RoundTripSpec Spec.VerifySpec Spec.RequiredSpec Spec.ProtocolSpec
  Proofs.Samples Proofs.SentLemmas Proofs.SentSamples.
Import ListNotations.
Open Scope list_scope.
Open Scope N_scope.

(** C165: a message with the parameters that its specification requires, values of the declared kinds and enumerated
    values of the specification can be written as a query string without and with lax; who reads the query string
    accepts the message and has the parameters that were sent ... *)
Theorem C165_query : forall E K hdr c l lax d, In (c, l) spec_demands -> (forall a, In a l -> has_parameter d a) -> spec_choices c d ->
  (forall v, subclass c C_oauth2_ResponseMessage = true -> dget d (u "error_description") = Some v -> desc_ok v) ->
  content urlable (cd_param (cdef c)) d ->
  exists t d', to_urlencoded (cdef c) lax d = Ok t /\ from_urlencoded (cdef c) (cd_default (cdef c)) t = (d', Ok tt) /\
    verify E K hdr c d' = (d', Ok true) /\ forall k, dget d' k = dget d k.
Proof. exact sent_query. Qed.
Print Assumptions C165_query.

(** ... and so for one that is sent as JSON, ... *)
Theorem C165_json : forall E K hdr c l d, In (c, l) spec_demands -> (forall a, In a l -> has_parameter d a) -> spec_choices c d ->
  (forall v, subclass c C_oauth2_ResponseMessage = true -> dget d (u "error_description") = Some v -> desc_ok v) ->
  content canon (cd_param (cdef c)) d ->
  exists t d', to_json (cdef c) d = Ok t /\ from_json (cdef c) (cd_default (cdef c)) t = (d', Ok tt) /\
    verify E K hdr c d' = (d', Ok true) /\ forall k, dget d' k = dget d k.
Proof. exact sent_json. Qed.
Print Assumptions C165_json.

(** ... or handed over as a dictionary. *)
Theorem C165_dict : forall E K hdr c l d, In (c, l) spec_demands -> (forall a, In a l -> has_parameter d a) -> spec_choices c d ->
  (forall v, subclass c C_oauth2_ResponseMessage = true -> dget d (u "error_description") = Some v -> desc_ok v) ->
  content canon (cd_param (cdef c)) d ->
  exists r d', to_dict (cdef c) d = Ok r /\ from_dict (cdef c) (cd_default (cdef c)) (VDict r) = (d', Ok tt) /\
    verify E K hdr c d' = (d', Ok true) /\ forall k, dget d' k = dget d k.
Proof. exact sent_dict. Qed.
Print Assumptions C165_dict.

(** the exchange of a token as a query string with a parameter of its own, the introspection of one as JSON *)
Example C165_case :
  In (C_oauth2_TokenExchangeRequest, [u "grant_type"; u "subject_token"; u "subject_token_type"]) spec_demands /\
  (forall a, In a [u "grant_type"; u "subject_token"; u "subject_token_type"] -> has_parameter se_request a) /\
  spec_choices C_oauth2_TokenExchangeRequest se_request /\ content urlable (cd_param (cdef C_oauth2_TokenExchangeRequest)) se_request /\
  to_urlencoded (cdef C_oauth2_TokenExchangeRequest) false se_request = Ok se_text /\
  from_urlencoded (cdef C_oauth2_TokenExchangeRequest) [] se_text = (se_request, Ok tt) /\
  verify sample (with_jar []) None C_oauth2_TokenExchangeRequest se_request = (se_request, Ok true) /\
  In (C_oauth2_TokenIntrospectionResponse, [u "active"]) spec_demands /\ (forall a, In a [u "active"] -> has_parameter se_answer a) /\
  spec_choices C_oauth2_TokenIntrospectionResponse se_answer /\ content canon (cd_param (cdef C_oauth2_TokenIntrospectionResponse)) se_answer /\
  to_json (cdef C_oauth2_TokenIntrospectionResponse) se_answer = Ok se_json /\
  from_json (cdef C_oauth2_TokenIntrospectionResponse) [] se_json = (se_answer, Ok tt) /\
  verify sample (with_jar []) None C_oauth2_TokenIntrospectionResponse se_answer = (se_answer, Ok true).
Proof.
  split; [vm_compute; tauto|]. split; [exact se_request_has|]. split; [exact se_request_choices|]. split; [exact se_request_urlable|].
  split; [vm_compute; reflexivity|]. split; [vm_compute; reflexivity|]. split; [vm_compute; reflexivity|]. split; [vm_compute; tauto|].
  split; [exact se_answer_has|]. split; [exact se_answer_choices|]. split; [exact se_answer_canon|]. vm_compute. repeat split; reflexivity.
Qed.
