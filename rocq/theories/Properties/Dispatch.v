(** C110 - C112: serialize and deserialize, texts that are no messages, error responses. *)
From Coq Require Import List NArith ZArith Bool String.
From Verif Require Import Base.Ustr Model.Cls Model.Value Model.Pspec Model.Tables Model.Json Model.Message Model.Dispatch
  Spec.MessageSpec Spec.RoundTripSpec Spec.DispatchSpec Proofs.DispatchLemmas Proofs.RoundTripSamples.
Import ListNotations.
Open Scope list_scope.
Open Scope N_scope.

(** C110: what serialize wrote with one of the three methods deserialize reads with the same method. *)
Theorem C110_round_trip : forall C lax d m, survives C lax d m -> covers_defaults C d ->
  exists x d', serialize C lax d m = Ok x /\ deserialize C (cd_default C) x m = (d', Ok tt) /\ forall k, dget d' k = dget d k.
Proof. exact c110_round_trip. Qed.
Print Assumptions C110_round_trip.

(** A method that does not exist is a FormatError and changes nothing; serialize raises AttributeError. *)
Theorem C110_unknown : forall C lax d info m, ~ In m [u "urlencoded"; u "dict"; u "json"; u "jwt"; u "jwe"] ->
  deserialize C d info m = (d, Err EFormatError) /\ serialize C lax d m = Err EAttributeError.
Proof. exact c110_unknown. Qed.
Print Assumptions C110_unknown.

(** Without keys nothing is decrypted, taken for verified or encrypted: TypeError, and the message is left alone. *)
Theorem C110_keyless : forall C lax d info,
  (forall m, In m [u "jwt"; u "jwe"] -> deserialize C d info m = (d, Err ETypeError)) /\ serialize C lax d (u "jwe") = Err ETypeError.
Proof. exact c110_jose. Qed.
Print Assumptions C110_keyless.

Example C110_case : let C := cdef C_oidc_AuthorizationRequest in
  survives C false rt_request (u "json") /\ covers_defaults C rt_request /\
  ~ In (u "xml") [u "urlencoded"; u "dict"; u "json"; u "jwt"; u "jwe"].
Proof.
  cbv zeta. split; [apply SvJson; exact rt_request_canon|]. split; [intros k []|].
  intro H. repeat (destruct H as [H|H]; [discriminate H|]). destruct H.
Qed.

(** C111: a text without a single field name=value is no query string; the empty text is one ... *)
Theorem C111_query : forall C d q,
  from_urlencoded C d [] = (d, Ok tt) /\
  (q <> [] -> (forall k, ~ gives q k) -> from_urlencoded C d q = (d, Err EFormatError)).
Proof. exact c111_query. Qed.
Print Assumptions C111_query.

(** ... an accepted one sets just the parameters it has fields for ... *)
Theorem C111_query_keys : forall C d d' q, from_urlencoded C d q = (d', Ok tt) ->
  (q <> [] -> exists k, gives q k) /\ forall k, In k (map fst d') <-> In k (map fst d) \/ gives q k.
Proof. exact c111_keys. Qed.
Print Assumptions C111_query_keys.

(** ... and of JSON documents only objects are messages. *)
Theorem C111_json : forall C d t,
  (forall d', from_json C d t = (d', Ok tt) -> exists o, json_loads t = Ok (VDict o)) /\
  (forall v, json_loads t = Ok v -> (forall o, v <> VDict o) -> from_json C d t = (d, Err EAttributeError)) /\
  (forall e, json_loads t = Err e -> from_json C d t = (d, Err e)).
Proof. exact c111_json. Qed.
Print Assumptions C111_json.

Example C111_case : let C := cdef C_oauth2_AuthorizationRequest in
  from_urlencoded C [] (u "state&nonce=") = ([], Err EFormatError) /\
  from_urlencoded C [] (u "state=a&nonce=&x") = ([(u "state", VStr (u "a"))], Ok tt) /\
  from_json C [] (u "[""state""]") = ([], Err EAttributeError) /\
  json_loads (u "[""state""]") = Ok (VList [VStr (u "state")]) /\
  from_json C [] (u "{") = ([], Err EJSONDecodeError).
Proof. vm_compute. repeat split; reflexivity. Qed.

(** C112: is_error_message recognizes the error responses among the messages read from query strings ... *)
Theorem C112_query : forall c q d, from_urlencoded (cdef c) (cd_default (cdef c)) q = (d, Ok tt) ->
  (is_error_message d = true <-> gives q (u "error")).
Proof. exact c112_query. Qed.
Print Assumptions C112_query.

(** ... and from dictionaries. *)
Theorem C112_dict : forall c l d, NoDup (map fst l) -> from_dict (cdef c) (cd_default (cdef c)) (VDict l) = (d, Ok tt) ->
  (forall s, s <> [] -> dget l (u "error") = Some (VStr s) -> is_error_message d = true /\ dget d (u "error") = Some (VStr s)) /\
  (dget l (u "error") = None -> is_error_message d = false).
Proof. exact c112_dict. Qed.
Print Assumptions C112_dict.

Example C112_case : let C := cdef C_oidc_AccessTokenResponse in
  (exists d, from_urlencoded C (cd_default C) (u "error=invalid_grant&error_description=x") = (d, Ok tt) /\ is_error_message d = true) /\
  (exists d, from_urlencoded C (cd_default C) (u "access_token=error&error=") = (d, Ok tt) /\ is_error_message d = false) /\
  (exists d, from_dict C (cd_default C) (VDict [(u "error", VStr (u "invalid_grant"))]) = (d, Ok tt) /\ is_error_message d = true).
Proof. vm_compute. repeat split; eexists; split; reflexivity. Qed.
