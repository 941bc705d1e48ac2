(** C144 - C147: rules of OpenID Connect Core 6.1 and RFC 9101 for request objects. *)
From Coq Require Import List NArith ZArith Bool String.
From Verif Require Import Base.Ustr Model.Cls Model.Value Model.Pspec Model.Tables Model.Json Model.Message Model.Env Model.Verify
  Spec.MessageSpec Spec.VerifySpec Spec.ClockSpec Spec.RequestRuleSpec Proofs.RequestRuleLemmas Proofs.Samples Proofs.RequestRuleSamples.
Import ListNotations.
Open Scope list_scope.
Open Scope N_scope.

(** C144: a signed request object is verified with the keys of the client that the request names (or of the opponent_id the caller
    gave) ... *)
Theorem C144_keys_partial : forall E K hdr c d d' t tok, subclass c C_oidc_AuthorizationRequest = true ->
  verify E K hdr c d = (d', Ok true) -> dget d (u "request") = Some (VStr t) ->
  not_encrypted E t -> e_jws E (VStr t) = Ok (Some tok) -> signed_tok tok ->
  exists args, verified_with E args t tok /\
    dget args (u "opponent_id") = match kget K (u "opponent_id") with Some v => Some v | None => dget d (u "client_id") end.
Proof. exact object_keys. Qed.
Print Assumptions C144_keys_partial.

(** ... but the message need not be that client's afterwards.  Full statement: if verify() accepts, then
    [dget d' (u "client_id") = dget d (u "client_id")].  It is false: a client makes, with its own key, the request of another. *)
Theorem C144_client_refuted : exists E K d d' t tok,
  verify E K None C_oidc_AuthorizationRequest d = (d', Ok true) /\ dget d (u "request") = Some (VStr t) /\
  not_encrypted E t /\ e_jws E (VStr t) = Ok (Some tok) /\ signed_tok tok /\
  dget d (u "client_id") = Some (VStr (u "evil")) /\ dget d' (u "client_id") = Some (VStr (u "rp")) /\
  (* the keys of the client rp do not verify it *)
  (forall i b args, dget args (u "opponent_id") = Some (VStr (u "rp")) -> forall keys a, e_kj_keys E i b tok args = Ok keys -> e_sig E t a keys <> Ok tt).
Proof.
  exists rr, (with_jar [(u "alg", VStr (u "RS256"))]), (rr_request "evil" (u "by.evil")), rr_evil, (u "by.evil"), (tok_of rs256 request_claims).
  split; [vm_compute; reflexivity|]. split; [reflexivity|]. split; [apply rr_plaintext|]. split; [reflexivity|]. split; [discriminate|].
  split; [reflexivity|]. split; [vm_compute; reflexivity|]. intros i b args H keys a Hk. cbn [e_kj_keys rr] in Hk. rewrite H in Hk.
  injection Hk as <-. discriminate.
Qed.
Print Assumptions C144_client_refuted.

Example C144_case : rr_run "rp" (u "good") = (rr_good, Ok true) /\ e_jws rr (VStr (u "good")) = Ok (Some (tok_of rs256 request_claims)) /\
  not_encrypted rr (u "good") /\ signed_tok (tok_of rs256 request_claims) /\
  snd (rr_run "rp" (u "by.evil")) = Err ECrypto /\ snd (rr_run "nobody" (u "good")) = Err EMissingSigningKey.
Proof.
  split; [vm_compute; reflexivity|]. split; [reflexivity|]. split; [apply rr_plaintext|]. split; [discriminate|]. split; vm_compute; reflexivity.
Qed.

(** C145: a JWS with an algorithm is accepted as request object only with a valid signature ... *)
Theorem C145_signed_partial : forall E K hdr c d d' t tok, takes_object c ->
  verify E K hdr c d = (d', Ok true) -> dget d (u "request") = Some (VStr t) ->
  not_encrypted E t -> e_jws E (VStr t) = Ok (Some tok) -> signed_tok tok -> signature_verified E t tok.
Proof. exact object_signature. Qed.
Print Assumptions C145_signed_partial.

(** ... but neither a JWS with alg none nor plain JSON is refused, not even if the caller demands an algorithm.  Full statement: for
    all [takes_object c], if verify() with an argument alg accepts, then [exists tok, e_jws E (VStr t) = Ok (Some tok) /\
    dget (t_hdr tok) (u "alg") = kget K (u "alg") /\ signature_verified E t tok]. *)
Theorem C145_unsigned_refuted : exists E K,
  kget K (u "alg") = Some (VStr (u "RS256")) /\ (forall t, not_encrypted E t) /\
  (exists d d' t tok, verify E K None C_oidc_AuthorizationRequest d = (d', Ok true) /\ dget d (u "request") = Some (VStr t) /\
     e_jws E (VStr t) = Ok (Some tok) /\ dget (t_hdr tok) (u "alg") = Some (VStr (u "none")) /\ (forall a keys, e_sig E t a keys = Ok tt -> In 0 keys)) /\
  (exists d d' t, verify E K None C_oidc_AuthorizationRequest d = (d', Ok true) /\ dget d (u "request") = Some (VStr t) /\
     e_jws E (VStr t) = Ok None /\ dget d (u "redirect_uri") = Some (VStr (u "https://rp/cb")) /\ dget d' (u "redirect_uri") = Some (VStr (u "https://evil/cb"))) /\
  (forall c, In c [C_oauth2_JWTSecuredAuthorizationRequest; C_oauth2_PushedAuthorizationRequest] ->
     exists d' req, verify E K None c [(u "request", VStr rr_json)] = (d', Ok true) /\
       dget d' (u "__verified_request") = Some (VMsg C_oauth2_AuthorizationRequest req) /\ e_jws E (VStr rr_json) = Ok None).
Proof.
  exists rr, (with_jar [(u "alg", VStr (u "RS256"))]). split; [reflexivity|]. split; [apply rr_plaintext|]. split; [|split].
  - exists (rr_request "rp" (u "unsigned")), rr_unsigned, (u "unsigned"), (tok_of alg_none request_claims).
    split; [vm_compute; reflexivity|]. split; [reflexivity|]. split; [reflexivity|]. split; [reflexivity|].
    intros a keys. change (e_sig rr (u "unsigned") a keys) with (if existsb (N.eqb 0) keys then Ok tt else Err ECrypto).
    destruct (existsb (N.eqb 0) keys) eqn:X; [|discriminate]. intros _. apply existsb_exists in X. destruct X as (x & Hx & He).
    apply N.eqb_eq in He. subst x. exact Hx.
  - exists (rr_request "rp" rr_json), rr_plain, rr_json. split; [vm_compute; reflexivity|]. repeat (split; [vm_compute; reflexivity|]). vm_compute; reflexivity.
  - intros c [<-|[<-|[]]]; eexists; eexists; (split; [vm_compute; reflexivity|]); split; vm_compute; reflexivity.
Qed.
Print Assumptions C145_unsigned_refuted.

Example C145_case : takes_object C_oidc_AuthorizationRequest /\ takes_object C_oauth2_JWTSecuredAuthorizationRequest /\
  takes_object C_oauth2_PushedAuthorizationRequest /\ rr_run "rp" (u "good") = (rr_good, Ok true) /\ snd (rr_run "rp" (u "by.evil")) = Err ECrypto /\
  snd (verify rr (with_jar [(u "opponent_id", VStr (u "rp"))]) None C_oauth2_JWTSecuredAuthorizationRequest (rr_request "rp" (u "good"))) = Ok true /\
  snd (verify rr (with_jar [(u "opponent_id", VStr (u "rp"))]) None C_oauth2_PushedAuthorizationRequest (rr_request "rp" (u "by.evil"))) = Err ECrypto.
Proof.
  split; [left; reflexivity|]. split; [right; left; reflexivity|]. split; [right; right; reflexivity|]. repeat split; vm_compute; reflexivity.
Qed.

(** C146: full statement: a request object with an exp that has passed is refused.  It is false, at every time: the claims exp, nbf and iat
    of a request object are not looked at (C136_timeless). *)
Theorem C146_expired_refuted : exists E K d d' t tok, forall now,
  verify (clock E now) K None C_oidc_AuthorizationRequest d = (d', Ok true) /\ dget d (u "request") = Some (VStr t) /\
  e_jws E (VStr t) = Ok (Some tok) /\ exists b, t_body tok = Ok (VDict b) /\ dget b (u "exp") = Some (VInt 1).
Proof.
  exists rr, (with_jar []), (rr_request "rp" (u "expired")), rr_expired, (u "expired"), (tok_of rs256 (request_claims ++ [(u "exp", VInt 1)])).
  intro now. split; [vm_compute; reflexivity|]. split; [reflexivity|]. split; [reflexivity|]. eexists. split; reflexivity.
Qed.
Print Assumptions C146_expired_refuted.

(** C147: full statement: after verify() accepted a message with a request object, it has no parameter request: request objects must not
    contain one.  It is false: it stays, and nothing has verified it. *)
Theorem C147_nested_refuted : exists E K d d' t t',
  verify E K None C_oidc_AuthorizationRequest d = (d', Ok true) /\ dget d (u "request") = Some (VStr t) /\
  dget d' (u "request") = Some (VStr t') /\ (forall a keys, e_sig E t' a keys <> Ok tt).
Proof.
  exists rr, (with_jar []), (rr_request "rp" (u "nested")), rr_nested, (u "nested"), (u "forged").
  split; [vm_compute; reflexivity|]. split; [reflexivity|]. split; [vm_compute; reflexivity|]. intros a keys. discriminate.
Qed.
Print Assumptions C147_nested_refuted.
