(** C163: the exceptions of verify() of a message that carries tokens. *)
From Coq Require Import List NArith ZArith QArith Bool String.
From Verif Require Import Base.Ustr Model.Cls Model.Value Model.Pspec Model.Tables Model.Message Model.Env Model.Verify
  Spec.ErrorSpec Spec.RaiseSpec Spec.TokenErrorSpec Proofs.Samples Proofs.TokenErrorLemmas Proofs.TokenErrorSamples.
Import ListNotations.
Open Scope list_scope.
Open Scope N_scope.

(** C163: verify() with a key jar of a message whose ID Token, hint or logout token is well formed raises exceptions of the library,
    ValueErrors, UnsupportedAlgorithm and what the crypto library raises only ... *)
Theorem C163_verify : forall E K hdr c d d' e, assurance c = false -> usual_args K -> kw_jar K = true -> as_expected c d -> openid_supported c d ->
  dget d (u "request") = None -> tokens_well_formed E d -> verify E K hdr c d = (d', Err e) ->
  anticipated e \/ e = EUnsupportedAlgorithm \/ from_outside E e \/ e = OutOfModel.
Proof. exact c163. Qed.
Print Assumptions C163_verify.

(** ... and so for what somebody sends as a query string. *)
Theorem C163_query : forall E K hdr c q d d' e, assurance c = false -> comes_in_token c = false -> usual_args K -> kw_jar K = true ->
  from_urlencoded (cdef c) (cd_default (cdef c)) q = (d, Ok tt) -> openid_supported c d -> dget d (u "request") = None -> tokens_well_formed E d ->
  verify E K hdr c d = (d', Err e) -> anticipated e \/ e = EUnsupportedAlgorithm \/ from_outside E e \/ e = OutOfModel.
Proof. exact c163_query. Qed.
Print Assumptions C163_query.

(** Every condition counts: no key jar, no algorithm, claims that are no object, a date of birth or a description of an error
    that is null, events that are the text of a list, and a logout token that is neither a token nor an object. *)
Theorem C163_conditions : ~ anticipated ETypeError /\ ~ anticipated EKeyError /\ ~ anticipated EAttributeError /\
  te_outcome C_oidc_AccessTokenResponse {| kw := []; kw_jar := false |} (token_response "id.signed") = Err ETypeError /\
  te_outcome C_oidc_AccessTokenResponse (with_jar []) (token_response "no.alg") = Err EKeyError /\
  te_outcome C_oidc_AccessTokenResponse (with_jar []) (token_response "id.list") = Err ETypeError /\
  te_outcome C_oidc_AccessTokenResponse (with_jar []) (token_response "id.noerr") = Err ETypeError /\
  te_outcome C_oidc_AccessTokenResponse (with_jar []) (token_response "id.born") = Err ETypeError /\
  te_outcome C_session_BackChannelLogoutRequest (with_jar []) (te_logout "lo.noevent") = Err EAttributeError /\
  te_outcome C_session_BackChannelLogoutRequest (with_jar []) (te_logout "[]") = Err EAttributeError.
Proof. exact te_conditions. Qed.
Print Assumptions C163_conditions.

(** tokens that are well formed, and what verify() makes of them *)
Example C163_case : assurance C_oidc_AccessTokenResponse = false /\ usual_args (with_jar [(u "client_id", VStr (u "rp"))]) /\
  as_expected C_oidc_AccessTokenResponse (token_response "id.forged") /\ openid_supported C_oidc_AccessTokenResponse (token_response "id.forged") /\
  dget (token_response "id.forged") (u "request") = None /\ tokens_well_formed sample (token_response "id.forged") /\
  tokens_well_formed sample (token_response "id.none") /\ tokens_well_formed sample (token_response "id.unknown") /\
  map (fun t => snd (verify sample (with_jar [(u "client_id", VStr (u "rp"))]) None C_oidc_AccessTokenResponse (token_response t)))
    ["id.forged"; "id.none"; "id.unknown"; "id.signed"]%string = [Err ECrypto; Err EUnsupportedAlgorithm; Err EValueError; Ok true] /\
  from_outside sample ECrypto.
Proof.
  split; [reflexivity|]. split; [exact te_usual|]. split; [apply te_expected|]. split; [intros v H; discriminate|]. split; [reflexivity|].
  split; [apply te_response; cbn [In]; tauto|]. split; [apply te_response; cbn [In]; tauto|]. split; [apply te_response; cbn [In]; tauto|].
  split; [vm_compute; reflexivity|]. exact (OutSignature sample ECrypto (u "id.forged") VNone [7] eq_refl).
Qed.

(** neither a missing expiry time nor an audience that is an object leads to another exception *)
Example C163_case_claims :
  map (fun t => te_outcome C_oidc_AccessTokenResponse (with_jar []) (token_response t)) ["id.noexp"; "id.noazp"; "id.audobj"]%string =
    [Err EMissingRequiredAttribute; Err EVerificationError; Err EValueError].
Proof. vm_compute. reflexivity. Qed.
