(** C123: parameters that a class does not know. *)
From Coq Require Import List NArith ZArith Bool String.
From Verif Require Import Base.Ustr Model.Cls Model.Value Model.Pspec Model.Tables Model.Message Model.Env Model.Verify
  Spec.MessageSpec Spec.DispatchSpec Spec.UnknownSpec Proofs.Samples Proofs.UnknownLemmas Proofs.UnknownSamples.
Import ListNotations.
Open Scope list_scope.
Open Scope N_scope.

(** C123: verify() of two messages that differ only in parameters the class does not know has the same outcome; [keep] are
    the parameters in which they agree.  (Parameters whose value is null are not covered.) *)
Theorem C123_verify_partial : forall E K hdr c keep d1 d2, NoDup (map fst d1) -> NoDup (map fst d2) ->
  (forall k, known c k = true -> keep k = true) -> agree_on keep d1 d2 ->
  (subclass c C_oidc_AuthorizationRequest = true -> json_payloads E) ->
  same_outcome c keep (verify E K hdr c d1) (verify E K hdr c d2).
Proof. exact unknown. Qed.
Print Assumptions C123_verify_partial.

(** So fields with unknown names that are appended to a query string change nothing for who receives it ... *)
Theorem C123_query : forall E K hdr c t f, (exists k, gives t k) -> (forall k, gives f k -> known c k = false) ->
  (subclass c C_oidc_AuthorizationRequest = true -> json_payloads E) ->
  same_reception E K hdr c (from_urlencoded (cdef c) (cd_default (cdef c)) t) (from_urlencoded (cdef c) (cd_default (cdef c)) (t ++ 38 :: f)).
Proof. exact received_query. Qed.
Print Assumptions C123_query.

(** ... nor do unknown members of a dictionary or a JSON object (from_json is from_dict of what it parses), unless null. *)
Theorem C123_dict_partial : forall E K hdr c l1 l2,
  filter (fun kv : ustr * value => known c (fst kv)) l1 = filter (fun kv : ustr * value => known c (fst kv)) l2 ->
  (forall k v, In (k, v) l1 \/ In (k, v) l2 -> known c k = false -> ordinary v) ->
  (subclass c C_oidc_AuthorizationRequest = true -> json_payloads E) ->
  same_reception E K hdr c (from_dict (cdef c) (cd_default (cdef c)) (VDict l1)) (from_dict (cdef c) (cd_default (cdef c)) (VDict l2)).
Proof. exact received_dict. Qed.
Print Assumptions C123_dict_partial.

Example C123_query_case : (exists k, gives uk_request k) /\ (forall k, gives uk_more k -> known C_oidc_AuthorizationRequest k = false) /\
  json_payloads sample /\
  exists d1 d2, from_urlencoded (cdef C_oidc_AuthorizationRequest) [] uk_request = (d1, Ok tt) /\
    from_urlencoded (cdef C_oidc_AuthorizationRequest) [] (uk_request ++ 38 :: uk_more) = (d2, Ok tt) /\ d1 <> d2 /\
    snd (verify sample (with_jar []) None C_oidc_AuthorizationRequest d1) = Ok true /\
    snd (verify sample (with_jar []) None C_oidc_AuthorizationRequest d2) = Ok true.
Proof.
  split; [exact uk_some|]. split; [exact uk_unknown|]. split; [exact sample_json|].
  exists (fst (from_urlencoded (cdef C_oidc_AuthorizationRequest) [] uk_request)), (fst (from_urlencoded (cdef C_oidc_AuthorizationRequest) [] (uk_request ++ 38 :: uk_more))).
  split; [vm_compute; reflexivity|]. split; [vm_compute; reflexivity|]. split; [vm_compute; discriminate|]. split; vm_compute; reflexivity.
Qed.

(** It is not true of all undeclared parameters: those of [also_read] matter, as aud in an authorization response, and
    parameters that are null, as in userinfo. *)
Theorem C123_undeclared_refuted :
  (let d := [(u "code", VStr (u "x"))] in let V := verify sample (with_jar [(u "client_id", VStr (u "c"))]) None C_oidc_AuthorizationResponse in
   dhas (cd_param (cdef C_oidc_AuthorizationResponse)) (u "aud") = false /\
   snd (V d) = Ok true /\ snd (V (d ++ [(u "aud", VStr (u "x"))])) = Ok false) /\
  (let d := [(u "sub", VStr (u "x"))] in let V := verify sample (with_jar []) None C_oidc_OpenIDSchema in
   known C_oidc_OpenIDSchema (u "foo") = false /\ snd (V d) = Ok true /\ snd (V (d ++ [(u "foo", VNone)])) = Ok false) /\
  (let d := [(u "grant_type", VStr (u "g")); (u "code", VStr (u "x")); (u "redirect_uri", VStr (u "https://rp/cb"))] in let V := verify sample (with_jar []) None C_device_AccessTokenRequest in
   dhas (cd_param (cdef C_device_AccessTokenRequest)) (u "device_code") = false /\
   snd (V d) = Ok false /\ snd (V (d ++ [(u "device_code", VStr (u "x"))])) = Err EMissingRequiredAttribute).
Proof. cbv zeta. repeat split; vm_compute; reflexivity. Qed.
Print Assumptions C123_undeclared_refuted.
