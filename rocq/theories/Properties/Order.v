(** C118, C119: verify() depends neither on the order of the parameters nor on the way a message came. *)
From Coq Require Import List NArith ZArith Bool String.
From Verif Require Import Base.Ustr Model.Cls Model.Value Model.Pspec Model.Tables Model.Message Model.Env Model.Verify
  Spec.MessageSpec Spec.RoundTripSpec Spec.VerifySpec Spec.OrderSpec
  Proofs.Samples Proofs.JoseSamples Proofs.RoundTripSamples Proofs.RequestObjectSamples Proofs.OrderLemmas Proofs.OrderSamples.
Import ListNotations.
Open Scope list_scope.
Open Scope N_scope.

(** C118: two instances of any class with the same parameters and values, in whatever orders, get the same verdict and
    have the same parameters and values afterwards. *)
Theorem C118_order : forall E K hdr c d1 d2, NoDup (map fst d1) -> NoDup (map fst d2) -> (forall k, dget d1 k = dget d2 k) ->
  alike c (verify E K hdr c d1) (verify E K hdr c d2).
Proof. exact order. Qed.
Print Assumptions C118_order.

Example C118_case : rev or_request <> or_request /\ NoDup (map fst (rev or_request)) /\
  (forall k, dget (rev or_request) k = dget or_request k) /\
  snd (verify (toy_env 1500) ro_args None C_oidc_AuthorizationRequest or_request) = Ok true /\
  snd (verify (toy_env 1500) ro_args None C_oidc_AuthorizationRequest (rev or_request)) = Ok true /\
  snd (verify (toy_env 1500) ro_args None C_oidc_AuthorizationRequest (rev rt_request)) = Err EMissingRequiredAttribute.
Proof.
  split; [discriminate|]. split; [exact or_reversed_nodup|]. split; [exact or_reversed|]. repeat split; vm_compute; reflexivity.
Qed.

(** C119: a message of any class, whose values have their declared kinds, that was written as JSON text or dictionary and read
    again gets the verdict of the original, under all keyword arguments. *)
Theorem C119_json_dict : forall E K hdr c d, content canon (cd_param (cdef c)) d -> covers_defaults (cdef c) d ->
  (exists t d', to_json (cdef c) d = Ok t /\ from_json (cdef c) (cd_default (cdef c)) t = (d', Ok tt) /\
     alike c (verify E K hdr c d) (verify E K hdr c d')) /\
  (exists r d', to_dict (cdef c) d = Ok r /\ from_dict (cdef c) (cd_default (cdef c)) (VDict r) = (d', Ok tt) /\
     alike c (verify E K hdr c d) (verify E K hdr c d')).
Proof. exact transport. Qed.
Print Assumptions C119_json_dict.

(** ... and one that was written as a query string. *)
Theorem C119_query : forall E K hdr c lax d, content urlable (cd_param (cdef c)) d -> covers_defaults (cdef c) d ->
  (lax = true \/ has_required (cdef c) d) ->
  exists t d', to_urlencoded (cdef c) lax d = Ok t /\ from_urlencoded (cdef c) (cd_default (cdef c)) t = (d', Ok tt) /\
     alike c (verify E K hdr c d) (verify E K hdr c d').
Proof. exact transport_url. Qed.
Print Assumptions C119_query.

(** So the provider accepts an authorization request that came as a query string exactly if the one that the client wrote
    has the required parameters with allowed values and keeps the rules, and has then what the client wrote. *)
Theorem C119_authorization : forall E K hdr c lax d, subclass c C_oidc_AuthorizationRequest = true ->
  content canon (cd_param (cdef c)) d -> content urlable (cd_param (cdef c)) d ->
  dget d (u "request") = None -> dget d (u "id_token_hint") = None ->
  (lax = true \/ has_required (cdef c) d) ->
  exists t d', to_urlencoded (cdef c) lax d = Ok t /\ from_urlencoded (cdef c) (cd_default (cdef c)) t = (d', Ok tt) /\
    ((exists d'', verify E K hdr c d' = (d'', Ok true)) <-> table_ok (cdef c) d /\ authz_rules K d) /\
    (forall d'', verify E K hdr c d' = (d'', Ok true) ->
       forall k, ~ In k [u "__verified_id_token"; u "__verified_id_token_hint"; u "__verified_request"] -> dget d'' k = dget d k).
Proof. exact sent_request. Qed.
Print Assumptions C119_authorization.

Example C119_case : content canon (cd_param (cdef C_oidc_AuthorizationRequest)) or_request /\
  content urlable (cd_param (cdef C_oidc_AuthorizationRequest)) or_request /\
  has_required (cdef C_oidc_AuthorizationRequest) or_request /\ authz_rules ro_args or_request /\
  to_urlencoded (cdef C_oidc_AuthorizationRequest) false or_request = Ok or_text /\
  (let '(d', r) := from_urlencoded (cdef C_oidc_AuthorizationRequest) [] or_text in
   r = Ok tt /\ snd (verify (toy_env 1500) ro_args None C_oidc_AuthorizationRequest d') = Ok true /\
   dget d' (u "state") = Some (VStr [233; 32; 128512; 34])).
Proof.
  split; [exact or_canon|]. split; [exact or_urlable|]. split; [exact or_required|]. split; [exact or_rules|].
  split; [vm_compute; reflexivity|]. vm_compute. repeat split; reflexivity.
Qed.
