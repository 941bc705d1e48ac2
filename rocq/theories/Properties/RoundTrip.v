(** C01, C02, C03: the round trips of messages. *)
From Coq Require Import List NArith ZArith Bool String.
From Verif Require Import Base.Ustr Model.Cls Model.Value Model.Pspec Model.Tables Model.Message
  Spec.JsonSpec Spec.MessageSpec Spec.CodecSpec Spec.RoundTripSpec Proofs.RoundTrip Proofs.RoundTripSamples.
Import ListNotations.
Open Scope list_scope.
Open Scope N_scope.

(** C01: a fresh instance that reads the JSON text of a message has the parameters of the message. *)
Theorem C01_json_round_trip : forall C d, content canon (cd_param C) d -> covers_defaults C d ->
  exists t d', to_json C d = Ok t /\ from_json C (cd_default C) t = (d', Ok tt) /\ forall k, dget d' k = dget d k.
Proof. exact json_round_trip. Qed.
Print Assumptions C01_json_round_trip.

Example C01_case : let C := cdef C_oidc_AuthorizationRequest in
  content canon (cd_param C) rt_request /\ covers_defaults C rt_request /\
  exists t, to_json C rt_request = Ok t /\ from_json C (cd_default C) t = (rt_request, Ok tt).
Proof.
  cbv zeta. split; [exact rt_request_canon|]. split; [intros k []|]. exact rt_request_json.
Qed.

(** The defaults have to be among the parameters: a message without them gets them back. *)
Theorem C01_default_back : exists d t d', content canon (cd_param (cdef C_oidc_RegistrationRequest)) d /\
  to_json (cdef C_oidc_RegistrationRequest) d = Ok t /\
  from_json (cdef C_oidc_RegistrationRequest) (cd_default (cdef C_oidc_RegistrationRequest)) t = (d', Ok tt) /\
  dget d (u "response_types") = None /\ dget d' (u "response_types") = Some (VList [VStr (u "code")]).
Proof. exact default_back. Qed.
Print Assumptions C01_default_back.

(** C02: a fresh instance that reads the urlencoded text of a message has the parameters of the message. *)
Theorem C02_url_round_trip : forall C lax d, content urlable (cd_param C) d -> covers_defaults C d ->
  (lax = true \/ has_required C d) ->
  exists t d', to_urlencoded C lax d = Ok t /\ from_urlencoded C (cd_default C) t = (d', Ok tt) /\
    forall k, dget d' k = dget d k.
Proof. exact url_round_trip. Qed.
Print Assumptions C02_url_round_trip.

Example C02_case : let C := cdef C_oidc_AuthorizationRequest in
  content urlable (cd_param C) rt_request /\ covers_defaults C rt_request /\ has_required C rt_request /\
  exists t, to_urlencoded C false rt_request = Ok t /\ from_urlencoded C (cd_default C) t = (rt_request, Ok tt).
Proof.
  cbv zeta. split; [exact rt_request_urlable|]. split; [intros k []|]. split; [exact rt_request_required|]. exact rt_request_url.
Qed.

(** C03: a fresh instance made from the dictionary of a message has the parameters of the message. *)
Theorem C03_dict_round_trip : forall C d, content canon (cd_param C) d -> covers_defaults C d ->
  exists r d', to_dict C d = Ok r /\ from_dict C (cd_default C) (VDict r) = (d', Ok tt) /\ forall k, dget d' k = dget d k.
Proof. exact dict_round_trip. Qed.
Print Assumptions C03_dict_round_trip.

Example C03_case : let C := cdef C_oidc_JRD in
  content canon (cd_param C) rt_jrd /\ covers_defaults C rt_jrd /\
  exists r, to_dict C rt_jrd = Ok r /\ from_dict C (cd_default C) (VDict r) = (rt_jrd, Ok tt).
Proof.
  cbv zeta. split; [exact rt_jrd_canon|]. split; [intros k []|]. exact rt_jrd_dict.
Qed.
