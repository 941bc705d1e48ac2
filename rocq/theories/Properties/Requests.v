(** C13, C27, C28, C38, C41, C42, C43: authorization requests and request objects. *)
From Coq Require Import List NArith ZArith Bool String.
From Verif Require Import Base.Ustr Model.Cls Model.Value Model.Pspec Model.Tables Model.Message Model.Env Model.Verify
  Spec.MessageSpec Spec.VerifySpec Proofs.VerifyLemmas Proofs.ResponseLemmas Proofs.ClassVerify Proofs.Deciders
  Proofs.Samples.
Import ListNotations.
Open Scope list_scope.
Open Scope N_scope.

(** C13: merging a request object. *)
Theorem C13_strict : forall d ro k, NoDup (map fst ro) -> dget (merge d ro Strict) k = dget ro k.
Proof. exact merge_strict. Qed.
Print Assumptions C13_strict.

Theorem C13_lax : forall d ro k, NoDup (map fst ro) ->
  dget (merge d ro Lax) k = match dget ro k with Some v => Some v | None => dget d k end.
Proof. exact merge_lax. Qed.
Print Assumptions C13_lax.

Theorem C13_whitelist : forall d ro l k, NoDup (map fst ro) -> l <> [] ->
  dget (merge d ro (Whitelist l)) k =
  match dget ro k with Some v => Some v | None => if umem k l then dget d k else None end.
Proof. exact merge_whitelist. Qed.
Print Assumptions C13_whitelist.

Example C13_case :
  let d := [(u "a", VInt 1); (u "b", VInt 2); (u "c", VInt 3)] in
  let ro := [(u "b", VInt 20); (u "n", VInt 4)] in
  NoDup (map fst ro) /\
  merge d ro Strict = [(u "b", VInt 20); (u "n", VInt 4)] /\
  merge d ro Lax = [(u "a", VInt 1); (u "b", VInt 20); (u "c", VInt 3); (u "n", VInt 4)] /\
  merge d ro (Whitelist [u "c"]) = [(u "c", VInt 3); (u "b", VInt 20); (u "n", VInt 4)].
Proof.
  cbv zeta. split; [apply nodupb_ok; vm_compute; reflexivity|]. repeat split; vm_compute; reflexivity.
Qed.

(** C27: after a successful verification with a request parameter the message holds the decoded
    request object, whose signature was checked, and the verified copy, nothing else. *)
Theorem C27_request : forall E K hdr d d' r,
  verify E K hdr C_oauth2_JWTSecuredAuthorizationRequest d = (d', Ok true) -> dget d (u "request") = Some r ->
  exists t req, py_str_e E r = Ok t /\ decoded E 0 C_oauth2_AuthorizationRequest t req /\ signature_checked E t /\
    dget d' (u "__verified_request") = Some (VMsg C_oauth2_AuthorizationRequest req) /\
    forall k, k <> u "__verified_request" -> dget d' k = dget req k.
Proof. exact c27_request. Qed.
Print Assumptions C27_request.

Theorem C27_neither : forall E K hdr d, dget d (u "request") = None -> dget d (u "request_uri") = None ->
  verify E K hdr C_oauth2_JWTSecuredAuthorizationRequest d = (d, Err EMissingAttribute).
Proof. exact c27_neither. Qed.
Print Assumptions C27_neither.

(** The pushed request keeps what the request object does not mention. *)
Theorem C27_pushed : forall E K hdr d d' r,
  verify E K hdr C_oauth2_PushedAuthorizationRequest d = (d', Ok true) -> dget d (u "request") = Some r ->
  exists t req, py_str_e E r = Ok t /\ decoded E 0 C_oauth2_AuthorizationRequest t req /\ signature_checked E t /\
    dget d' (u "__verified_request") = Some (VMsg C_oauth2_AuthorizationRequest req) /\
    forall k, k <> u "__verified_request" -> dget d' k = match dget req k with Some v => Some v | None => dget d k end.
Proof. exact c27_par. Qed.
Print Assumptions C27_pushed.

Example C27_case :
  let d := [(u "request", VStr (u "req.signed")); (u "client_id", VStr (u "evil")); (u "x", VInt 1);
            (u "__verified_request", VStr (u "forged"))] in
  exists d', verify sample (with_jar []) None C_oauth2_JWTSecuredAuthorizationRequest d = (d', Ok true) /\
    dget d (u "request") = Some (VStr (u "req.signed")) /\
    dget d' (u "client_id") = Some (VStr (u "rp")) /\ dget d' (u "x") = None /\
    exists d'', verify sample (with_jar []) None C_oauth2_PushedAuthorizationRequest d = (d'', Ok true) /\
    dget d'' (u "client_id") = Some (VStr (u "rp")) /\ dget d'' (u "x") = Some (VInt 1).
Proof.
  cbv zeta. eexists. split; [vm_compute; reflexivity|]. split; [reflexivity|].
  split; [vm_compute; reflexivity|]. split; [vm_compute; reflexivity|]. eexists.
  split; [vm_compute; reflexivity|]. split; vm_compute; reflexivity.
Qed.

(** The slot survives when only request_uri is there. *)
Theorem C27_slot_refuted : exists d v, dget d (u "__verified_request") = Some v /\ dget d (u "request") = None /\
  forall E K hdr, exists d', verify E K hdr C_oauth2_JWTSecuredAuthorizationRequest d = (d', Ok true) /\
    dget d' (u "__verified_request") = Some v.
Proof.
  exists [(u "request_uri", VStr (u "https://rp/r")); (u "__verified_request", VStr (u "forged"))], (VStr (u "forged")).
  split; [reflexivity|]. split; [reflexivity|]. intros. eexists. split; vm_compute; reflexivity.
Qed.
Print Assumptions C27_slot_refuted.

(** C28: JWTSecuredAuthorizationRequest and PushedAuthorizationRequest never look at the table:
    the required parameters may be missing after success ... *)
Theorem C28_required_refuted :
  (exists d d', verify sample (with_jar []) None C_oauth2_JWTSecuredAuthorizationRequest d = (d', Ok true) /\
     dget d (u "client_id") <> None /\ dget d' (u "client_id") = None) /\
  (forall E K hdr, verify E K hdr C_oauth2_PushedAuthorizationRequest [] = ([], Ok true)).
Proof.
  split; [|reflexivity].
  exists [(u "request", VStr (u "req.noclient")); (u "client_id", VStr (u "rp"))]. eexists.
  split; [vm_compute; reflexivity|]. split; [discriminate|]. vm_compute. reflexivity.
Qed.
Print Assumptions C28_required_refuted.

(** ... but come from nowhere else than the request object, or for a pushed request else from the
    message. *)
Theorem C28_request_partial : forall E K hdr d d' r a,
  verify E K hdr C_oauth2_JWTSecuredAuthorizationRequest d = (d', Ok true) -> dget d (u "request") = Some r ->
  In a [u "response_type"; u "client_id"] ->
  exists t req, py_str_e E r = Ok t /\ decoded E 0 C_oauth2_AuthorizationRequest t req /\ dget d' a = dget req a.
Proof. exact c28_jar. Qed.
Print Assumptions C28_request_partial.

Theorem C28_pushed_partial : forall E K hdr d d' r a,
  verify E K hdr C_oauth2_PushedAuthorizationRequest d = (d', Ok true) -> dget d (u "request") = Some r ->
  In a [u "response_type"; u "client_id"] ->
  exists t req, py_str_e E r = Ok t /\ decoded E 0 C_oauth2_AuthorizationRequest t req /\
    dget d' a = match dget req a with Some v => Some v | None => dget d a end.
Proof. exact c28_par. Qed.
Print Assumptions C28_pushed_partial.

(** C41: the rules on response_type, nonce, scope and prompt. *)
Theorem C41_rules : forall E K hdr c d d', subclass c C_oidc_AuthorizationRequest = true ->
  verify E K hdr c d = (d', Ok true) -> authz_rules K d'.
Proof. exact c41. Qed.
Print Assumptions C41_rules.

(** C42: a request object replaces the request. *)
Theorem C42_replaced : forall E K hdr c d d' t, subclass c C_oidc_AuthorizationRequest = true ->
  verify E K hdr c d = (d', Ok true) -> dget d (u "request") = Some (VStr t) ->
  exists ro, decoded E 0 C_oidc_OpenIDRequest t ro /\ signature_checked E t /\
    dget d' (u "__verified_request") = Some (VMsg C_oidc_OpenIDRequest ro) /\
    (forall k, k <> u "__verified_request" -> k <> u "verified_id_token_hint" -> dget d' k = dget ro k) /\
    (dget ro (u "id_token_hint") = None -> dget d' (u "verified_id_token_hint") = dget ro (u "verified_id_token_hint")).
Proof. exact c42. Qed.
Print Assumptions C42_replaced.

Example C42_case :
  let d := [(u "response_type", VList [VStr (u "code")]); (u "client_id", VStr (u "rp"));
            (u "scope", VList [VStr (u "openid")]); (u "redirect_uri", VStr (u "https://evil/cb"));
            (u "request", VStr (u "req.signed")); (u "state", VStr (u "s"))] in
  exists d', verify sample (with_jar []) None C_oidc_AuthorizationRequest d = (d', Ok true) /\
    subclass C_oidc_AuthorizationRequest C_oidc_AuthorizationRequest = true /\
    dget d (u "request") = Some (VStr (u "req.signed")) /\
    dget d' (u "redirect_uri") = Some (VStr (u "https://rp/cb")) /\ dget d' (u "state") = None /\
    dget d' (u "nonce") = Some (VStr (u "n1")).
Proof.
  cbv zeta. eexists. split; [vm_compute; reflexivity|]. split; [vm_compute; reflexivity|].
  repeat split; vm_compute; reflexivity.
Qed.

Example C41_case :
  let d p := [(u "response_type", VList [VStr (u "code"); VStr (u "id_token")]); (u "client_id", VStr (u "rp"));
            (u "scope", VList [VStr (u "openid"); VStr (u "offline_access")]); (u "redirect_uri", VStr (u "https://rp/cb"));
            (u "prompt", VList p); (u "nonce", VStr (u "n"))] in
  let run p n := snd (verify sample (with_jar [(u "nonce", VStr (u n))]) None C_oidc_AuthorizationRequest (d p)) in
  run [VStr (u "consent")] "n" = Ok true /\
  run [VStr (u "consent")] "m" = Err EValueError /\
  run [VStr (u "login")] "n" = Err EMissingRequiredValue /\
  run [VStr (u "consent"); VStr (u "none")] "n" = Err EInvalidRequest.
Proof. vm_compute. repeat split; reflexivity. Qed.

(** C43: after a request object was used, required parameters may be missing ... *)
Theorem C43_required_refuted : exists d d',
  verify sample (with_jar []) None C_oidc_AuthorizationRequest d = (d', Ok true) /\
  (exists s, dget (cd_param (cdef C_oidc_AuthorizationRequest)) (u "redirect_uri") = Some s /\ p_req s = true) /\
  dget d' (u "redirect_uri") = None /\ dget d' (u "client_id") = None.
Proof.
  exists [(u "response_type", VList [VStr (u "code")]); (u "client_id", VStr (u "rp"));
            (u "scope", VList [VStr (u "openid")]); (u "redirect_uri", VStr (u "https://rp/cb"));
            (u "request", VStr (u "req.noclient"))]. eexists.
  split; [vm_compute; reflexivity|].
  split; [eexists; split; vm_compute; reflexivity|]. split; vm_compute; reflexivity.
Qed.
Print Assumptions C43_required_refuted.

(** ... except response_type and scope; without request object all are there. *)
Theorem C43_required_partial : forall E K hdr c d d', subclass c C_oidc_AuthorizationRequest = true ->
  verify E K hdr c d = (d', Ok true) ->
  (exists v, dget d' (u "response_type") = Some v) /\ (exists v, dget d' (u "scope") = Some v) /\
  ((forall t, dget d (u "request") <> Some (VStr t)) ->
     forall a s, In (a, s) (cd_param (cdef c)) -> a <> u "*" -> p_req s = true -> exists v, dget d' a = Some v /\ given s v) /\
  (forall t, dget d (u "request") = Some (VStr t) -> exists ro, decoded E 0 C_oidc_OpenIDRequest t ro /\
     forall a, a <> u "__verified_request" -> a <> u "verified_id_token_hint" -> dget d' a = dget ro a).
Proof. exact c43. Qed.
Print Assumptions C43_required_partial.

(** C38: the slot verified_id_token_hint can be forged, its name is not the one that is cleared ... *)
Theorem C38_slot_refuted : exists d d' v,
  verify sample (with_jar []) None C_oidc_AuthorizationRequest d = (d', Ok true) /\
  dget d (u "id_token_hint") = None /\ dget d' (u "id_token_hint") = None /\
  dget d' (u "verified_id_token_hint") = Some v.
Proof.
  exists [(u "response_type", VList [VStr (u "code")]); (u "client_id", VStr (u "rp"));
            (u "scope", VList [VStr (u "openid")]); (u "redirect_uri", VStr (u "https://rp/cb"));
            (u "verified_id_token_hint", VDict [(u "sub", VStr (u "admin"))])]. eexists. eexists.
  split; [vm_compute; reflexivity|]. repeat split; vm_compute; reflexivity.
Qed.
Print Assumptions C38_slot_refuted.

(** ... but a hint is decoded and its signature checked, and there is no other source than the
    message, the request object and the hint. *)
Theorem C38_hint_partial : forall E K hdr c d d' t, subclass c C_oidc_AuthorizationRequest = true ->
  verify E K hdr c d = (d', Ok true) -> dget d' (u "id_token_hint") = Some (VStr t) ->
  exists idt, decoded E 1 C_oidc_IdToken t idt /\ signature_checked E t /\
    dget d' (u "verified_id_token_hint") = Some (VMsg C_oidc_IdToken idt).
Proof. exact c38_decoded. Qed.
Print Assumptions C38_hint_partial.

Theorem C38_source_partial : forall E K hdr c d d' v, subclass c C_oidc_AuthorizationRequest = true ->
  verify E K hdr c d = (d', Ok true) -> dget d' (u "verified_id_token_hint") = Some v ->
  (exists t idt, dget d' (u "id_token_hint") = Some (VStr t) /\ decoded E 1 C_oidc_IdToken t idt /\
     signature_checked E t /\ v = VMsg C_oidc_IdToken idt) \/
  dget d (u "verified_id_token_hint") = Some v \/
  (exists t ro, dget d (u "request") = Some (VStr t) /\ decoded E 0 C_oidc_OpenIDRequest t ro /\
     dget ro (u "verified_id_token_hint") = Some v).
Proof. exact c38. Qed.
Print Assumptions C38_source_partial.

Example C38_case :
  let d := [(u "response_type", VList [VStr (u "code")]); (u "client_id", VStr (u "rp"));
            (u "scope", VList [VStr (u "openid")]); (u "redirect_uri", VStr (u "https://rp/cb"));
            (u "id_token_hint", VStr (u "id.signed"))] in
  exists d' i, verify sample (with_jar []) None C_oidc_AuthorizationRequest d = (d', Ok true) /\
  dget d' (u "id_token_hint") = Some (VStr (u "id.signed")) /\
  dget d' (u "verified_id_token_hint") = Some (VMsg C_oidc_IdToken i) /\ dget i (u "sub") = Some (VStr (u "diana")).
Proof.
  cbv zeta. eexists. eexists. split; [vm_compute; reflexivity|]. repeat split; vm_compute; reflexivity.
Qed.
