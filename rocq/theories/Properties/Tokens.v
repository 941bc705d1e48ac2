(** C39, C40, C51 - C54: JWTs, logout tokens, end of session, key refresh. *)
From Coq Require Import List NArith ZArith QArith Bool String.
From Verif Require Import Base.Ustr Model.Cls Model.Value Model.Pspec Model.Tables Model.Json Model.Message Model.Env
  Model.Verify Spec.MessageSpec Spec.VerifySpec Proofs.TokenLemmas Proofs.OtherVerify Proofs.ClassVerify Proofs.Samples.
Import ListNotations.
Open Scope list_scope.
Open Scope N_scope.

(** C39: the rules for JSON Web Tokens, exactly. *)
Theorem C39_rules : forall E K hdr c d, subclass c C_oidc_JsonWebToken = true ->
  (verify E K hdr c d = (d, Ok true) <-> table_ok (cdef c) d /\ jwt_rules (e_now E) K d).
Proof. exact c39. Qed.
Print Assumptions C39_rules.

Theorem C39_no_false : forall E K hdr c d, subclass c C_oidc_JsonWebToken = true ->
  exists r, verify E K hdr c d = (d, r) /\ r <> Ok false.
Proof. exact c39_false. Qed.
Print Assumptions C39_no_false.

Example C39_case :
  let run k d := snd (verify sample (with_jar k) None C_oidc_JsonWebToken d) in
  let d := [(u "iss", VStr (u "a")); (u "aud", VList [VStr (u "b")]); (u "exp", VInt 1000);
            (u "iat", VInt 1000); (u "nbf", VInt 1000)] in
  run [] d = Ok true /\
  run [(u "aud", VStr (u "b")); (u "iss", VStr (u "a"))] d = Ok true /\
  run [(u "aud", VStr (u "c"))] d = Err ENotForMe /\ run [(u "iss", VStr (u "c"))] d = Err EValueError /\
  run [] (dset d (u "exp") (VInt 999)) = Err EEXPError /\ run [(u "skew", VInt 1)] [(u "exp", VInt 999)] = Ok true /\
  run [] (dset d (u "iat") (VInt 1001)) = Err EEXPError /\ run [] (dset d (u "nbf") (VInt 1001)) = Err EEXPError /\
  subclass C_oidc_AuthnToken C_oidc_JsonWebToken = true.
Proof. vm_compute. repeat split; reflexivity. Qed.

(** C40: a larger skew accepts less where nbf is concerned ... *)
Theorem C40_skew_refuted : exists d K K' s s', same_but_skew K K' /\
  arg_int K (u "skew") 0 s /\ arg_int K' (u "skew") 0 s' /\ (s <= s')%Z /\
  verify sample K None C_oidc_JsonWebToken d = (d, Ok true) /\
  verify sample K' None C_oidc_JsonWebToken d = (d, Err EEXPError).
Proof.
  exists [(u "nbf", VInt 1000)], (with_jar []), (with_jar [(u "skew", VInt 5)]), 0%Z, 5%Z.
  split; [intros k Hk; unfold kget; cbn [kw with_jar dget];
          destruct (ueqb k (u "skew")) eqn:Ek; [apply ueqb_eq in Ek; congruence|reflexivity]|].
  split; [left; split; reflexivity|]. split; [right; exists (VInt 5); split; reflexivity|].
  split; [discriminate|]. split; vm_compute; reflexivity.
Qed.
Print Assumptions C40_skew_refuted.

(** ... else it does not. *)
Theorem C40_skew_partial : forall E K K' hdr c d s s', subclass c C_oidc_JsonWebToken = true -> same_but_skew K K' ->
  arg_int K (u "skew") 0 s -> arg_int K' (u "skew") 0 s' -> (s <= s')%Z -> dget d (u "nbf") = None ->
  verify E K hdr c d = (d, Ok true) -> verify E K' hdr c d = (d, Ok true).
Proof. exact c40_class. Qed.
Print Assumptions C40_skew_partial.

(** C51: the rules for logout tokens, exactly. *)
Theorem C51_rules : forall E K hdr d,
  verify E K hdr C_session_LogoutToken d = (d, Ok true) <->
  table_ok (cdef C_session_LogoutToken) d /\ logout_rules (e_now E) K hdr d.
Proof. exact c51. Qed.
Print Assumptions C51_rules.

Theorem C51_required : forall E K hdr d k, verify E K hdr C_session_LogoutToken d = (d, Ok true) ->
  In k [u "iss"; u "aud"; u "iat"; u "jti"; u "events"] -> exists v, dget d k = Some v /\ ~ empty_value v.
Proof. exact c51_required. Qed.
Print Assumptions C51_required.

Example C51_case :
  let run k d := snd (verify sample (with_jar k) (Some rs256) C_session_LogoutToken d) in
  run [] logout_claims = Ok true /\
  run [(u "aud", VStr (u "rp")); (u "iss", VStr (u "https://op")); (u "allowed_sign_alg", VStr (u "RS256"))] logout_claims = Ok true /\
  run [(u "aud", VStr (u "other"))] logout_claims = Err ENotForMe /\
  run [(u "iss", VStr (u "https://evil"))] logout_claims = Err ENotForMe /\
  run [(u "allowed_sign_alg", VStr (u "ES256"))] logout_claims = Err EUnsupportedAlgorithm /\
  run [] (dset logout_claims (u "nonce") (VStr (u "n"))) = Err EMessageException /\
  run [] (dset logout_claims (u "events") (VDict [(u "x", VDict [])])) = Err EValueError /\
  run [] (ddel logout_claims (u "sub")) = Err EValueError /\
  run [] (ddel logout_claims (u "jti")) = Err EMissingRequiredAttribute /\
  run [] (dset logout_claims (u "iat") (VInt 1001)) = Err EValueError.
Proof. vm_compute. repeat split; reflexivity. Qed.

(** C52: an unsigned logout token, even plain JSON, is accepted ... *)
Theorem C52_signed_refuted :
  (exists d', verify sample (with_jar []) None C_session_BackChannelLogoutRequest
                [(u "logout_token", VStr (u "lo.none"))] = (d', Ok true) /\
     e_jws sample (VStr (u "lo.none")) = Ok (Some (tok_of alg_none logout_claims))) /\
  (exists t d', verify sample (with_jar []) None C_session_BackChannelLogoutRequest
                  [(u "logout_token", VStr t)] = (d', Ok true) /\ e_jws sample (VStr t) = Ok None).
Proof.
  split.
  - eexists. split; vm_compute; reflexivity.
  - destruct (json_dumps (VDict logout_claims)) as [t|] eqn:Et; [|vm_compute in Et; discriminate].
    exists t. vm_compute in Et. injection Et as <-. eexists. split; vm_compute; reflexivity.
Qed.
Print Assumptions C52_signed_refuted.

(** ... unless allowed_sign_alg is given ... *)
Theorem C52_allowed_partial : forall E K hdr d d' t a,
  verify E K hdr C_session_BackChannelLogoutRequest d = (d', Ok true) ->
  dget d (u "logout_token") = Some (VStr t) -> not_encrypted E t ->
  kget K (u "allowed_sign_alg") = Some a -> ~ empty_value a -> a <> VStr (u "none") ->
  (forall v, kget K (u "verify") = Some v -> ~ empty_value v) ->
  exists tok, e_jws E (VStr t) = Ok (Some tok) /\ signature_verified_for E K t tok.
Proof. exact c52_alg. Qed.
Print Assumptions C52_allowed_partial.

(** ... but the token obeys the rules, and its signature is verified if it has one. *)
Theorem C52_token_partial : forall E K hdr d d' t,
  verify E K hdr C_session_BackChannelLogoutRequest d = (d', Ok true) ->
  dget d (u "logout_token") = Some (VStr t) -> not_encrypted E t ->
  exists lt, decoded E 0 C_session_LogoutToken t lt /\
    dget d' (u "__verified_logout_token") = Some (VMsg C_session_LogoutToken lt) /\
    table_ok (cdef C_session_LogoutToken) lt /\
    (exists h, logout_rules (e_now E) K h lt /\
       (forall tok, e_jws E (VStr t) = Ok (Some tok) -> h = Some (t_hdr tok)) /\
       (e_jws E (VStr t) = Ok None -> h = None)) /\
    (forall tok, e_jws E (VStr t) = Ok (Some tok) -> signed_tok tok ->
       (forall v, kget K (u "verify") = Some v -> ~ empty_value v) -> signature_verified_for E K t tok).
Proof. exact c52. Qed.
Print Assumptions C52_token_partial.

Example C52_case :
  let run k t := snd (verify sample (with_jar k) None C_session_BackChannelLogoutRequest [(u "logout_token", VStr (u t))]) in
  run [] "lo.signed"%string = Ok true /\ run [] "lo.forged"%string = Err ECrypto /\
  run [(u "allowed_sign_alg", VStr (u "RS256"))] "lo.signed"%string = Ok true /\
  run [(u "allowed_sign_alg", VStr (u "RS256"))] "lo.none"%string = Err EUnsupportedAlgorithm /\
  not_encrypted sample (u "lo.signed").
Proof. cbv zeta. repeat (split; [vm_compute; reflexivity|]). apply sample_not_encrypted. Qed.

(** C53: no redirect after logout without a hint ... *)
Theorem C53_redirect : forall E K hdr d d', verify E K hdr C_session_EndSessionRequest d = (d', Ok true) ->
  dget d (u "post_logout_redirect_uri") <> None -> dget d (u "id_token_hint") <> None.
Proof. exact c53_hint. Qed.
Print Assumptions C53_redirect.

(** ... which was verified. *)
Theorem C53_hint : forall E K hdr d d' t, verify E K hdr C_session_EndSessionRequest d = (d', Ok true) ->
  dget d (u "id_token_hint") = Some (VStr t) -> not_encrypted E t ->
  exists idt tok body, decoded E 0 C_oidc_IdToken t idt /\
    dget d' (u "__verified_id_token_hint") = Some (VMsg C_oidc_IdToken idt) /\
    e_jws E (VStr t) = Ok (Some tok) /\ t_body tok = Ok body /\
    id_token_accepted E K false d t tok body idt.
Proof. exact c53_slot. Qed.
Print Assumptions C53_hint.

Example C53_case :
  let run d := snd (verify sample (with_jar []) None C_session_EndSessionRequest d) in
  let red := (u "post_logout_redirect_uri", VStr (u "https://rp/bye")) in
  run [red] = Ok false /\ run [red; (u "id_token_hint", VStr (u "id.signed"))] = Ok true /\
  run [red; (u "id_token_hint", VStr (u "id.forged"))] = Err ECrypto /\ run [] = Ok true.
Proof. vm_compute. repeat split; reflexivity. Qed.

(** C54: from_jwt never returns the content of a signed JWT, possibly after decryption, without a
    successful verification for the algorithm the caller demands; also on the path that refreshes
    the keys ... *)
Theorem C54_verified : forall E i c t t' jar args d hdr tok,
  from_jwt E i (cdef c) t jar true args = Ok (d, hdr) ->
  (t' = t /\ not_encrypted E t) \/ (forall a, e_jwe E i t a = Ok (Some t')) ->
  e_jws E (VStr t') = Ok (Some tok) -> signed_tok tok -> verified_with E args t' tok.
Proof. exact c54_text. Qed.
Print Assumptions C54_verified.

(** ... with a key, if the crypto library verifies nothing without one. *)
Theorem C54_keys : forall E args t tok, sig_needs_keys E -> verified_with E args t tok ->
  exists i b alg keys, e_kj_keys E i b tok args = Ok keys /\ keys <> [] /\ demanded_alg args alg /\
    e_sig E t alg keys = Ok tt.
Proof. exact sig_keys. Qed.
Print Assumptions C54_keys.

(** a key jar that has the key only after a refresh *)
Example C54_case :
  let E ks := {| e_now := 0; e_jws := e_jws sample; e_jwe := e_jwe sample; e_kj_true := true; e_kj_in := e_kj_in sample;
      e_kj_keys := fun _ refreshed _ _ => Ok (if refreshed then ks else [3]); e_kj_update := fun _ => Ok tt;
      e_sig := fun _ _ keys => if existsb (N.eqb 7) keys then Ok tt else Err ENoSuitableSigningKeys;
      e_lhash := e_lhash sample; e_repr := e_repr sample; e_netloc_ok := e_netloc_ok sample |} in
  (exists r, from_jwt (E [7]) 0 (cdef C_oidc_IdToken) (u "id.signed") true true [] = Ok r) /\
  from_jwt (E [8]) 0 (cdef C_oidc_IdToken) (u "id.signed") true true [] = Err ENoSuitableSigningKeys /\
  not_encrypted (E [7]) (u "id.signed") /\ sig_needs_keys (E [7]).
Proof.
  cbv zeta. split; [eexists; vm_compute; reflexivity|]. split; [vm_compute; reflexivity|].
  split; [intros i a; reflexivity|]. intros t a H. discriminate.
Qed.
