(** C29 - C37, C50: ID Tokens.  In C29, C32 and C33 [not_encrypted] says that the text is not
    taken for an encrypted JWT by from_jwt; for a text that parses as a signed JWT, as in these
    theorems, the crypto library never does. *)
From Coq Require Import List NArith ZArith QArith Bool String.
From Verif Require Import Base.Ustr Model.Cls Model.Value Model.Pspec Model.Tables Model.Message Model.Env Model.Verify
  Spec.MessageSpec Spec.VerifySpec Proofs.TokenLemmas Proofs.ResponseLemmas Proofs.OtherVerify Proofs.ClassVerify Proofs.Samples.
Import ListNotations.
Open Scope list_scope.
Open Scope N_scope.

(** C29: a signed ID Token is accepted only after its signature was verified ... *)
Theorem C29_signature : forall E K hdr c d d' t tok, has_id_token_check c -> verify E K hdr c d = (d', Ok true) ->
  dget d (u "id_token") = Some (VStr t) -> not_encrypted E t -> e_jws E (VStr t) = Ok (Some tok) -> signed_tok tok ->
  (forall v, kget K (u "verify") = Some v -> ~ empty_value v) ->
  signature_verified_for E K t tok.
Proof. exact c29. Qed.
Print Assumptions C29_signature.

(** ... with a key from the key jar, and for the algorithm in the argument sigalg, if given. *)
Theorem C29_keys : forall E K hdr c d d' t tok, has_id_token_check c -> verify E K hdr c d = (d', Ok true) ->
  dget d (u "id_token") = Some (VStr t) -> not_encrypted E t -> e_jws E (VStr t) = Ok (Some tok) -> signed_tok tok ->
  (forall v, kget K (u "verify") = Some v -> ~ empty_value v) -> sig_needs_keys E ->
  exists i b args alg keys, passed_on K args /\ e_kj_keys E i b tok args = Ok keys /\ keys <> [] /\
    demanded_alg args alg /\ e_sig E t alg keys = Ok tt.
Proof. exact c29_keys. Qed.
Print Assumptions C29_keys.

Example C29_case :
  has_id_token_check C_oidc_AccessTokenResponse /\
  (exists d', verify sample (with_jar []) None C_oidc_AccessTokenResponse (token_response "id.signed") = (d', Ok true)) /\
  not_encrypted sample (u "id.signed") /\
  e_jws sample (VStr (u "id.signed")) = Ok (Some (tok_of rs256 idt_claims)) /\ signed_tok (tok_of rs256 idt_claims) /\
  sig_needs_keys sample /\
  snd (verify sample (with_jar []) None C_oidc_AccessTokenResponse (token_response "id.forged")) = Err ECrypto /\
  snd (verify sample (with_jar [(u "verify", VBool false)]) None C_oidc_AccessTokenResponse (token_response "id.forged")) = Ok true.
Proof.
  split; [left; vm_compute; reflexivity|]. split; [eexists; vm_compute; reflexivity|].
  split; [apply sample_not_encrypted|]. split; [vm_compute; reflexivity|]. split; [discriminate|].
  split; [apply sample_needs_keys|]. split; vm_compute; reflexivity.
Qed.

(** C30: unsigned ID Tokens only on request. *)
Theorem C30_unsigned : forall E K hdr c d d' t tok, has_id_token_check c -> verify E K hdr c d = (d', Ok true) ->
  dget d (u "id_token") = Some (VStr t) -> e_jws E (VStr t) = Ok (Some tok) ->
  dget (t_hdr tok) (u "alg") = Some (VStr (u "none")) ->
  kget K (u "sigalg") = Some (VStr (u "none")) \/
  exists v, kget K (u "allow_sign_alg_none") = Some v /\ v <> VBool false.
Proof. exact c30. Qed.
Print Assumptions C30_unsigned.

Example C30_case :
  let run k := snd (verify sample (with_jar k) None C_oidc_AccessTokenResponse (token_response "id.none")) in
  run [] = Err EUnsupportedAlgorithm /\ run [(u "allow_sign_alg_none", VBool false)] = Err EUnsupportedAlgorithm /\
  run [(u "allow_sign_alg_none", VBool true)] = Ok true /\ run [(u "sigalg", VStr (u "none"))] = Ok true.
Proof. vm_compute. repeat split; reflexivity. Qed.

(** C31: allowed_sign_alg. *)
Theorem C31_allowed : forall E K hdr c d d' t tok a, has_id_token_check c -> verify E K hdr c d = (d', Ok true) ->
  dget d (u "id_token") = Some (VStr t) -> e_jws E (VStr t) = Ok (Some tok) -> signed_tok tok ->
  kget K (u "allowed_sign_alg") = Some a ->
  exists alg, dget (t_hdr tok) (u "alg") = Some alg /\ py_eq alg a = true.
Proof. exact c31. Qed.
Print Assumptions C31_allowed.

Example C31_case :
  let run a := snd (verify sample (with_jar [(u "allowed_sign_alg", VStr (u a))]) None C_oidc_AccessTokenResponse
                      (token_response "id.signed")) in
  run "RS256"%string = Ok true /\ run "ES256"%string = Err EUnsupportedAlgorithm.
Proof. vm_compute. split; reflexivity. Qed.

(** C32: the issuer of a signed ID Token is known to the key jar ... *)
Theorem C32_known : forall E K hdr c d d' t tok, has_id_token_check c -> verify E K hdr c d = (d', Ok true) ->
  dget d (u "id_token") = Some (VStr t) -> not_encrypted E t -> e_jws E (VStr t) = Ok (Some tok) -> signed_tok tok ->
  exists body iss, t_body tok = Ok body /\
    ((exists b, body = VDict b /\ dget b (u "iss") = Some iss) \/
     (exists c b, body = VMsg c b /\ dget b (u "iss") = Some iss)) /\ e_kj_in E iss = Ok true.
Proof. exact c32. Qed.
Print Assumptions C32_known.

(** ... and else the errors are these. *)
Theorem C32_errors : forall E K hdr d v tok b alg, response_ok (cdef C_oidc_AccessTokenResponse) d ->
  dget d (u "id_token") = Some v -> e_jws E v = Ok (Some tok) ->
  dget (t_hdr tok) (u "alg") = Some alg -> alg <> VStr (u "none") ->
  (forall a, kget K (u "allowed_sign_alg") = Some a -> py_eq alg a = true) ->
  t_body tok = Ok (VDict b) -> kw_jar K = true ->
  (dget b (u "iss") = None -> snd (verify E K hdr C_oidc_AccessTokenResponse d) = Err EMissingRequiredAttribute) /\
  (forall iss, dget b (u "iss") = Some iss -> e_kj_in E iss = Ok false ->
     snd (verify E K hdr C_oidc_AccessTokenResponse d) = Err EValueError).
Proof. exact c32_err. Qed.
Print Assumptions C32_errors.

Example C32_case :
  let run t := snd (verify sample (with_jar []) None C_oidc_AccessTokenResponse (token_response t)) in
  run "id.signed"%string = Ok true /\ run "id.noiss"%string = Err EMissingRequiredAttribute /\
  run "id.unknown"%string = Err EValueError /\
  response_ok (cdef C_oidc_AccessTokenResponse) (token_response "id.unknown").
Proof.
  cbv zeta. split; [vm_compute; reflexivity|]. split; [vm_compute; reflexivity|]. split; [vm_compute; reflexivity|].
  split; [apply table_by_compute; vm_compute; reflexivity|]. intros v H. discriminate.
Qed.

(** C33: access token and code belong to the ID Token. *)
Theorem C33_hashes : forall E K hdr c d d' t tok, subclass c C_oidc_AuthorizationResponse = true ->
  verify E K hdr c d = (d', Ok true) ->
  dget d (u "id_token") = Some (VStr t) -> not_encrypted E t -> e_jws E (VStr t) = Ok (Some tok) -> signed_tok tok ->
  exists idt alg h, dget d' (u "__verified_id_token") = Some (VMsg C_oidc_IdToken idt) /\
    dget (t_hdr tok) (u "alg") = Some (VStr alg) /\ hash_of_alg alg h /\
    (forall x, dget d (u "access_token") = Some x -> exists a y,
       dget idt (u "at_hash") = Some a /\ e_lhash E x h = Ok y /\ py_eq a y = true) /\
    (forall x, dget d (u "code") = Some x -> exists a y,
       dget idt (u "c_hash") = Some a /\ e_lhash E x h = Ok y /\ py_eq a y = true).
Proof. exact c33. Qed.
Print Assumptions C33_hashes.

Example C33_case :
  let run a c := snd (verify sample (with_jar []) None C_oidc_AuthorizationResponse (hybrid_response a c)) in
  run "at1"%string "co1"%string = Ok true /\ run "xt1"%string "co1"%string = Err EAtHashError /\
  run "at1"%string "xo1"%string = Err ECHashError.
Proof. vm_compute. repeat split; reflexivity. Qed.

(** C34: the rules for ID Tokens, exactly. *)
Theorem C34_rules : forall E K hdr d,
  verify E K hdr C_oidc_IdToken d = (d, Ok true) <->
  schema_ok (cdef C_oidc_IdToken) d /\ id_token_rules (e_now E) K d.
Proof. exact c34. Qed.
Print Assumptions C34_rules.

Theorem C34_required : forall E K hdr d k, verify E K hdr C_oidc_IdToken d = (d, Ok true) ->
  In k [u "iss"; u "sub"; u "aud"; u "exp"; u "iat"] -> exists v, dget d k = Some v /\ ~ empty_value v.
Proof. exact c34_required. Qed.
Print Assumptions C34_required.

Example C34_case :
  let run k d := snd (verify sample (with_jar k) None C_oidc_IdToken d) in
  let two := dset idt_claims (u "aud") (VList [VStr (u "rp"); VStr (u "rp2")]) in
  run [(u "iss", VStr (u "https://op")); (u "client_id", VStr (u "rp")); (u "nonce", VStr (u "n0"))] idt_claims = Ok true /\
  run [(u "iss", VStr (u "https://evil"))] idt_claims = Err EIssuerMismatch /\
  run [(u "client_id", VStr (u "other"))] idt_claims = Err ENotForMe /\
  run [(u "nonce", VStr (u "n1"))] idt_claims = Err EValueError /\
  run [] two = Err EVerificationError /\
  run [] (dset two (u "azp") (VStr (u "rp"))) = Ok true /\
  run [(u "client_id", VStr (u "rp2"))] (dset two (u "azp") (VStr (u "rp"))) = Err ENotForMe /\
  run [] (dset idt_claims (u "exp") (VInt 999)) = Err EEXPError /\
  run [(u "skew", VInt 1)] (dset idt_claims (u "exp") (VInt 999)) = Ok true.
Proof. vm_compute. repeat split; reflexivity. Qed.

(** with times and skews that are floating point numbers *)
Example C34_case_fractions :
  let run k d := snd (verify sample (with_jar k) None C_oidc_IdToken d) in
  let at_ t := dset idt_claims (u "exp") (VFlt t) in
  e_now sample = 1000%Z /\
  run [] (at_ (3999 # 4)) = Err EEXPError /\ run [(u "skew", VFlt (1 # 2))] (at_ (3999 # 4)) = Ok true /\
  run [(u "skew", VFlt (1 # 2))] (at_ (999 # 1)) = Err EEXPError /\
  run [(u "skew", VFlt (1 # 2)); (u "nonce_storage_time", VFlt (199 # 2))] (dset idt_claims (u "iat") (VInt 900)) = Ok true /\
  run [(u "skew", VFlt (1 # 2)); (u "nonce_storage_time", VFlt (197 # 2))] (dset idt_claims (u "iat") (VInt 900)) = Err EIATError /\
  (* a skew that is too small to count *)
  run [(u "skew", VFlt (1 # 2 ^ 50))] (at_ ((1000 * 2 ^ 43 - 1) # 2 ^ 43)) = Err EEXPError /\
  difference (VInt 1000) (VFlt (1 # 2 ^ 50)) 1000 /\ difference (VInt 1000) (VFlt (1 # 2)) (1999 # 2).
Proof.
  cbv zeta. split; [reflexivity|]. do 6 (split; [vm_compute; reflexivity|]).
  split; apply sub_difference; [exists (VFlt 1000)|exists (VFlt (1999 # 2))]; (split; [vm_compute; reflexivity|reflexivity]).
Qed.

(** C35: what is too old stays too old ... *)
Theorem C35_rejected : forall E E' K hdr d e s, arg_int K (u "skew") 0 s -> (e_now E <= e_now E')%Z ->
  verify E K hdr C_oidc_IdToken d = (d, Err e) -> late e ->
  exists e', verify E' K hdr C_oidc_IdToken d = (d, Err e') /\ late e'.
Proof. exact c35_reject_class. Qed.
Print Assumptions C35_rejected.

(** ... what is accepted was acceptable before ... *)
Theorem C35_earlier : forall E E' K hdr d s, arg_int K (u "skew") 0 s -> (e_now E <= e_now E')%Z ->
  verify E' K hdr C_oidc_IdToken d = (d, Ok true) -> verify E K hdr C_oidc_IdToken d = (d, Ok true).
Proof. exact c35_time_class. Qed.
Print Assumptions C35_earlier.

(** ... and a larger skew only accepts more. *)
Theorem C35_skew : forall E K K' hdr d s s', same_but_skew K K' ->
  arg_int K (u "skew") 0 s -> arg_int K' (u "skew") 0 s' -> (s <= s')%Z ->
  verify E K hdr C_oidc_IdToken d = (d, Ok true) -> verify E K' hdr C_oidc_IdToken d = (d, Ok true).
Proof. exact c35_skew_class. Qed.
Print Assumptions C35_skew.

Example C35_case :
  let run t k := snd (verify (at_time sample t) (with_jar k) None C_oidc_IdToken idt_claims) in
  run 2000%Z [] = Ok true /\ run 2001%Z [] = Err EEXPError /\ run 20000%Z [] = Err EEXPError /\
  run 20000%Z [(u "skew", VInt 18000)] = Ok true /\
  snd (verify (at_time sample 15301) (with_jar []) None C_oidc_IdToken (dset idt_claims (u "exp") (VInt 20000))) = Err EIATError.
Proof. vm_compute. repeat split; reflexivity. Qed.

(** C36: a null claim is fatal for UserInfo ... *)
Theorem C36_userinfo_partial : forall E K hdr c d, subclass c C_oidc_OpenIDSchema = true ->
  subclass c C_oidc_IdToken = false -> has_null d -> snd (verify E K hdr c d) <> Ok true.
Proof. exact c36_schema. Qed.
Print Assumptions C36_userinfo_partial.

(** ... but IdToken.verify does not look at the inherited answer. *)
Theorem C36_id_token_refuted : exists d, has_null d /\
  verify sample (with_jar []) None C_oidc_IdToken d = (d, Ok true).
Proof.
  exists (dset idt_claims (u "name") VNone). split; [|vm_compute; reflexivity].
  exists (u "name"). vm_compute. tauto.
Qed.
Print Assumptions C36_id_token_refuted.

Example C36_case :
  let d v := [(u "sub", VStr (u "diana")); (u "name", v)] in
  snd (verify sample (with_jar []) None C_oidc_OpenIDSchema (d VNone)) = Ok false /\
  snd (verify sample (with_jar []) None C_oidc_OpenIDSchema (d (VStr (u "D")))) = Ok true.
Proof. vm_compute. split; reflexivity. Qed.

(** C37: the slots are the library's. *)
Theorem C37_slots : forall E K hdr c d d',
  subclass c C_oidc_AccessTokenResponse = true \/ subclass c C_oidc_AuthorizationResponse = true ->
  verify E K hdr c d = (d', Ok true) ->
  dget d' (u "__verified_request") = None /\ dget d' (u "__verified_id_token_hint") = None /\
  (forall k, k <> u "__verified_request" -> k <> u "__verified_id_token_hint" -> k <> u "__verified_id_token" ->
     dget d' k = dget d k) /\
  (dget d (u "id_token") = None -> dget d' (u "__verified_id_token") = None) /\
  (forall v, dget d (u "id_token") = Some v -> exists t idt, py_str_e E v = Ok t /\
     decoded E 0 C_oidc_IdToken t idt /\ schema_ok (cdef C_oidc_IdToken) idt /\
     id_token_rules (e_now E) K idt /\ dget d' (u "__verified_id_token") = Some (VMsg C_oidc_IdToken idt)).
Proof. exact c37. Qed.
Print Assumptions C37_slots.

Example C37_case :
  let forged := [(u "__verified_id_token", VStr (u "f")); (u "__verified_request", VStr (u "f"));
                 (u "__verified_id_token_hint", VStr (u "f"))] in
  let base := [(u "access_token", VStr (u "at1")); (u "token_type", VStr (u "Bearer"))] in
  verify sample (with_jar []) None C_oidc_AccessTokenResponse (base ++ forged) = (base, Ok true) /\
  exists d' i, verify sample (with_jar []) None C_oidc_AccessTokenResponse (token_response "id.signed" ++ forged) = (d', Ok true) /\
    dget d' (u "__verified_id_token") = Some (VMsg C_oidc_IdToken i) /\ dget i (u "sub") = Some (VStr (u "diana")) /\
    dget d' (u "__verified_request") = None.
Proof.
  cbv zeta. split; [vm_compute; reflexivity|]. eexists. eexists. split; [vm_compute; reflexivity|].
  repeat split; vm_compute; reflexivity.
Qed.

(** C50: packing an ID Token. *)
Theorem C50_pack : forall E alg z d d', text_hash E -> pack E (cdef C_oidc_IdToken) alg (VInt z) d = (d', Ok tt) ->
  exists h, hash_of_alg alg h /\
  dget d' (u "access_token") = None /\ dget d' (u "code") = None /\
  (forall v, dget d (u "access_token") = Some v -> exists x, e_lhash E v h = Ok x /\ dget d' (u "at_hash") = Some x) /\
  (forall v, dget d (u "code") = Some v -> exists x, e_lhash E v h = Ok x /\ dget d' (u "c_hash") = Some x) /\
  dget d' (u "iat") = Some (VInt (e_now E)) /\
  (z <> 0%Z -> dget d' (u "exp") = Some (VInt (e_now E + z))) /\
  (z = 0%Z -> dget d' (u "exp") = dget d (u "exp")) /\
  (dget d (u "access_token") = None -> dget d' (u "at_hash") = dget d (u "at_hash")) /\
  (dget d (u "code") = None -> dget d' (u "c_hash") = dget d (u "c_hash")) /\
  (forall k, ~ In k [u "access_token"; u "code"; u "at_hash"; u "c_hash"; u "iat"; u "exp"] -> dget d' k = dget d k).
Proof. exact c50. Qed.
Print Assumptions C50_pack.

Example C50_case :
  text_hash sample /\
  pack sample (cdef C_oidc_IdToken) (u "RS256") (VInt 60)
    [(u "sub", VStr (u "diana")); (u "access_token", VStr (u "at1")); (u "code", VStr (u "co1"))] =
  ([(u "sub", VStr (u "diana")); (u "at_hash", VStr (u "HS256:at")); (u "c_hash", VStr (u "HS256:co"));
    (u "iat", VInt 1000); (u "exp", VInt 1060)], Ok tt).
Proof. split; [apply sample_text_hash|]. vm_compute. reflexivity. Qed.
