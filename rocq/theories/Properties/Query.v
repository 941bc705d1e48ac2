(** C07, C11, C12: query strings and requests. *)
From Coq Require Import List NArith ZArith Bool String.
From Verif Require Import Base.Ustr Base.Percent Model.Cls Model.Value Model.Pspec Model.Tables Model.Message
  Spec.MessageSpec Proofs.MessageLemmas Proofs.EncodeLemmas Proofs.Deciders.
Import ListNotations.
Open Scope list_scope.
Open Scope N_scope.

(** C07: a single-valued parameter given twice is never accepted: TooManyValues, or the error
    another parameter of the query raises by itself. *)
Theorem C07_duplicates_rejected : forall C d q k s, given_twice q k -> param_spec (cd_param C) k = Some s ->
  (forall t, p_typ s <> TList t) ->
  exists e, snd (from_urlencoded C d q) = Err e /\
    (e = ETooManyValues \/
     exists k' vals, k' <> k /\ In (k', vals) (parse_qs q) /\
       forall q' d', parse_qs q' = [(k', vals)] -> snd (from_urlencoded C d' q') = Err e).
Proof. exact c07. Qed.
Print Assumptions C07_duplicates_rejected.

Example C07_case :
  let C := cdef C_oauth2_AuthorizationRequest in
  let q := u "state=a&client_id=x&st%61te=b" in
  given_twice q (u "state") /\ param_spec (cd_param C) (u "state") = Some sp00 /\
  snd (from_urlencoded C [] q) = Err ETooManyValues.
Proof.
  cbv zeta. split; [|split; vm_compute; reflexivity].
  exists 0%nat, 2%nat, (u "state=a"), (u "st%61te=b"), (u "a"), (u "b").
  split; [auto|]. split; [vm_compute; reflexivity|]. split; [vm_compute; reflexivity|]. split.
  - exists (u "state"), (u "a"). repeat split; try (vm_compute; reflexivity); try discriminate.
    intro H; repeat (destruct H as [H|H]; [discriminate|]); destruct H.
  - exists (u "st%61te"), (u "b"). repeat split; try (vm_compute; reflexivity); try discriminate.
    intro H; repeat (destruct H as [H|H]; [discriminate|]); destruct H.
Qed.

(** C11: no query string of an incomplete message, unless lax; MissingRequiredAttribute if it has a dictionary form ... *)
Theorem C11_incomplete_refused_partial : forall C lax d,
  to_urlencoded C lax d = Err EMissingRequiredAttribute <->
  lax = false /\ (exists k s, In (k, s) (cd_param C) /\ p_req s = true /\ ~ In k (map fst d)) /\ exists r, to_dict C d = Ok r.
Proof. exact c11. Qed.
Print Assumptions C11_incomplete_refused_partial.

Theorem C11_no_query_partial : forall C d, (exists k s, In (k, s) (cd_param C) /\ p_req s = true /\ ~ In k (map fst d)) ->
  exists e, to_urlencoded C false d = Err e /\ (to_dict C d = Err e \/ e = EMissingRequiredAttribute).
Proof. exact c11_refused. Qed.
Print Assumptions C11_no_query_partial.

(** ... but another exception if it has none: the message of the exception needs it. *)
Theorem C11_exception_refuted : exists c d, (exists k s, In (k, s) (cd_param (cdef c)) /\ p_req s = true /\ ~ In k (map fst d)) /\
  to_urlencoded (cdef c) false d = Err ETypeError.
Proof.
  exists C_oauth2_AuthorizationRequest, [(u "scope", VInt 5)]. split; [|vm_compute; reflexivity].
  apply missing_required_iff. vm_compute. reflexivity.
Qed.
Print Assumptions C11_exception_refuted.

Example C11_case :
  let C := cdef C_oauth2_AuthorizationRequest in
  let d := [(u "client_id", VStr (u "c d"))] in
  to_urlencoded C false d = Err EMissingRequiredAttribute /\
  to_urlencoded C true d = Ok (u "client_id=c+d") /\
  to_urlencoded C false (d ++ [(u "response_type", VList [VStr (u "code"); VStr (u "token")])]) =
    Ok (u "client_id=c+d&response_type=code+token").
Proof. repeat split; vm_compute; reflexivity. Qed.

(** C12: request() appends the encoded message to the location. *)
Theorem C12_request : forall C d loc r q, request C false d loc false = Ok r -> to_urlencoded C false d = Ok q ->
  (In 63 loc -> r = loc ++ 38 :: q) /\
  (~ In 63 loc -> r = loc ++ 63 :: q) /\
  (~ In 35 loc -> parse_qsl (query_of r) = parse_qsl (query_of loc) ++ parse_qsl q).
Proof. exact c12. Qed.
Print Assumptions C12_request.

Theorem C12_fragment : forall C d loc r q, request C false d loc true = Ok r -> to_urlencoded C false d = Ok q ->
  r = loc ++ 35 :: q.
Proof. exact c12_fragment. Qed.
Print Assumptions C12_fragment.

Theorem C12_error : forall C d loc frag e, request C false d loc frag = Err e <-> to_urlencoded C false d = Err e.
Proof. exact c12_error. Qed.
Print Assumptions C12_error.

Example C12_case :
  let C := cdef C_oauth2_AuthorizationRequest in
  let d := [(u "client_id", VStr (u "c&d")); (u "response_type", VList [VStr (u "code")])] in
  request C false d (u "https://as.example/a?x=1") false = Ok (u "https://as.example/a?x=1&client_id=c%26d&response_type=code") /\
  request C false d (u "https://as.example/a") false = Ok (u "https://as.example/a?client_id=c%26d&response_type=code") /\
  parse_qsl (query_of (u "https://as.example/a?x=1&client_id=c%26d&response_type=code")) =
    [(u "x", u "1"); (u "client_id", u "c&d"); (u "response_type", u "code")].
Proof. repeat split; vm_compute; reflexivity. Qed.
