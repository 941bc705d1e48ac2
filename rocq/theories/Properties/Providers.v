(** C44 - C49, C78: registration, provider configuration, claims, birthdates, factories. *)
From Coq Require Import List NArith ZArith QArith Bool String.
From Verif Require Import Base.Ustr Model.Cls Model.Value Model.Pspec Model.Tables Model.Message Model.Env
  Model.Verify Spec.MessageSpec Spec.VerifySpec Proofs.OtherVerify Proofs.ClassVerify Proofs.Deciders Proofs.Samples.
Import ListNotations.
Open Scope list_scope.
Open Scope N_scope.

(** C44: a registration request is accepted exactly if it obeys the rules ... *)
Theorem C44_accepted : forall E K hdr d,
  (exists d', verify E K hdr C_oidc_RegistrationRequest d = (d', Ok true)) <->
  table_ok (cdef C_oidc_RegistrationRequest) d /\ registration_ok d.
Proof. exact c44_accept. Qed.
Print Assumptions C44_accepted.

(** ... missing enc values are filled in, nothing else changes, a second time changes nothing. *)
Theorem C44_result : forall E K hdr d d', verify E K hdr C_oidc_RegistrationRequest d = (d', Ok true) ->
  enc_filled d d' /\
  (forall p, In p enc_prefixes -> (In (p ++ u "_alg") (map fst d') <-> In (p ++ u "_enc") (map fst d'))) /\
  verify E K hdr C_oidc_RegistrationRequest d' = (d', Ok true).
Proof. exact c44_result. Qed.
Print Assumptions C44_result.

Example C44_case :
  let run d := verify sample (with_jar []) None C_oidc_RegistrationRequest d in
  let d := [(u "redirect_uris", VList [VStr (u "https://rp/cb")]);
            (u "id_token_encrypted_response_alg", VStr (u "RSA-OAEP"));
            (u "initiate_login_uri", VStr (u "https://rp/login"))] in
  run d = (d ++ [(u "id_token_encrypted_response_enc", VStr (u "A128CBC-HS256"))], Ok true) /\
  snd (run (dset d (u "initiate_login_uri") (VStr (u "http://rp/login")))) = Err EValueError /\
  snd (run (dset d (u "userinfo_encrypted_response_enc") (VStr (u "A128GCM")))) = Err EMissingRequiredAttribute /\
  snd (run (dset d (u "token_endpoint_auth_signing_alg") (VStr (u "none")))) = Err EValueError.
Proof. vm_compute. repeat split; reflexivity. Qed.

(** C45: both or neither. *)
Theorem C45_exact : forall E K hdr d,
  verify E K hdr C_oidc_RegistrationResponse d = (d, Ok true) <->
  response_ok (cdef C_oidc_RegistrationResponse) d /\
  (In (u "registration_client_uri") (map fst d) <-> In (u "registration_access_token") (map fst d)).
Proof. exact c45_class. Qed.
Print Assumptions C45_exact.

Example C45_case :
  let run d := snd (verify sample (with_jar []) None C_oidc_RegistrationResponse
    ([(u "client_id", VStr (u "rp")); (u "redirect_uris", VList [VStr (u "https://rp/cb")])] ++ d)) in
  let a := (u "registration_client_uri", VStr (u "https://op/r")) in
  let b := (u "registration_access_token", VStr (u "t")) in
  run [] = Ok true /\ run [a; b] = Ok true /\ run [a] = Err EVerificationError /\ run [b] = Err EVerificationError.
Proof. vm_compute. repeat split; reflexivity. Qed.

(** C46: the rules for a provider configuration.  [no_query] permits a '?' with nothing behind it ... *)
Theorem C46_rules_partial : forall E K hdr d d', verify E K hdr C_oidc_ProviderConfigurationResponse d = (d', Ok true) ->
  d' = d /\ response_ok (cdef C_oidc_ProviderConfigurationResponse) d /\
  (forall sc, dget d (u "scopes_supported") = Some sc -> contains sc (VStr (u "openid")) /\
     forall s, element sc (VStr s) -> forall c, In c s -> scope_char_but_excl c) /\
  (exists iss t, dget d (u "issuer") = Some (VStr iss) /\ url_text iss t /\
     (kget K (u "allow_http") = None -> https_url t) /\ no_query t /\ no_fragment t) /\
  (exists algs, dget d (u "id_token_signing_alg_values_supported") = Some algs /\ contains algs (VStr (u "RS256"))) /\
  (exists rts, dget d (u "response_types_supported") = Some rts /\
     forall x, element rts x -> contains x (VStr (u "code")) -> exists v, dget d (u "token_endpoint") = Some v).
Proof. exact c46. Qed.
Print Assumptions C46_rules_partial.

(** ... and an issuer with such a '?' and '#' is accepted. *)
Theorem C46_query_refuted : exists d iss a b,
  verify sample (with_jar []) None C_oidc_ProviderConfigurationResponse d = (d, Ok true) /\
  dget d (u "issuer") = Some (VStr iss) /\ iss = a ++ 63 :: b /\ In 35 b.
Proof.
  exists (provider "https://op?#"), (u "https://op?#"), (u "https://op"), [35].
  split; [vm_compute; reflexivity|]. split; [vm_compute; reflexivity|]. split; [vm_compute; reflexivity|]. left. reflexivity.
Qed.
Print Assumptions C46_query_refuted.

Example C46_case :
  let run k d := snd (verify sample (with_jar k) None C_oidc_ProviderConfigurationResponse d) in
  run [] (provider "https://op") = Ok true /\
  run [] (provider "http://op") = Err ESchemeError /\ run [(u "allow_http", VBool true)] (provider "http://op") = Ok true /\
  run [] (provider "https://op?q=1") = Err EValueError /\ run [] (provider "https://op#f") = Err EValueError /\
  run [] (ddel (provider "https://op") (u "token_endpoint")) = Err EMissingRequiredAttribute /\
  run [] (dset (provider "https://op") (u "id_token_signing_alg_values_supported") (VList [VStr (u "ES256")])) = Err EValueError /\
  run [] (dset (provider "https://op") (u "scopes_supported") (VList [VStr (u "email")])) = Err ETypeError.
Proof. vm_compute. repeat split; reflexivity. Qed.

(** C47: the exclamation mark, in RFC 6749's set, is refused ... *)
Theorem C47_charset_refuted : exists s, (forall c, In c s -> scope_char c) /\
  check_char_set s scope_charset = Err ENotAllowedValue.
Proof. exists (u "!"). split; [intros c [<-|[]]; left; reflexivity|vm_compute; reflexivity]. Qed.
Print Assumptions C47_charset_refuted.

(** ... the rest of the set is right. *)
Theorem C47_charset_partial : forall s,
  (check_char_set s scope_charset = Ok tt <-> forall c, In c s -> scope_char_but_excl c) /\
  (check_char_set s scope_charset = Err ENotAllowedValue <-> exists c, In c s /\ ~ scope_char_but_excl c).
Proof. exact c47_partial. Qed.
Print Assumptions C47_charset_partial.

(** C48: claims matching. *)
Theorem C48_exact : forall v spec, NoDup (map fst spec) ->
  (forall x, dget spec (u "values") = Some x -> exists vs, x = VList vs) ->
  (claims_match v (Some spec) = Ok true <-> claims_hit v spec) /\
  (claims_match v (Some spec) = Ok false <-> ~ claims_hit v spec).
Proof. exact c48. Qed.
Print Assumptions C48_exact.

Theorem C48_none : forall v, claims_match v None = Ok true.
Proof. exact c48_none. Qed.
Print Assumptions C48_none.

Theorem C48_sound : forall v spec, NoDup (map fst spec) -> claims_match v (Some spec) = Ok true -> claims_hit v spec.
Proof. exact c48_sound. Qed.
Print Assumptions C48_sound.

Example C48_case :
  let ess := (u "essential", VBool true) in
  let spec := [ess; (u "values", VList [VStr (u "a"); VStr (u "b")])] in
  NoDup (map fst spec) /\
  claims_match (VStr (u "b")) (Some spec) = Ok true /\ claims_match (VStr (u "c")) (Some spec) = Ok false /\
  claims_match (VStr (u "c")) (Some [ess]) = Ok true /\
  claims_match (VInt 1) (Some [(u "value", VInt 2)]) = Ok false.
Proof. cbv zeta. split; [apply nodupb_ok; vm_compute; reflexivity|]. repeat split; vm_compute; reflexivity. Qed.

(** C49: the fixed formats are accepted, exactly what strptime reads is ... *)
Theorem C49_accepted_partial : forall E K hdr d s, response_ok (cdef C_oidc_OpenIDSchema) d -> ~ has_null d ->
  dget d (u "birthdate") = Some (VStr s) -> birthdate_strict s ->
  snd (verify E K hdr C_oidc_OpenIDSchema d) = Ok true.
Proof. exact c49_strict. Qed.
Print Assumptions C49_accepted_partial.

Theorem C49_exact_partial : forall E K hdr d v, response_ok (cdef C_oidc_OpenIDSchema) d -> ~ has_null d ->
  dget d (u "birthdate") = Some v ->
  (snd (verify E K hdr C_oidc_OpenIDSchema d) = Ok true <-> exists s, v = VStr s /\ birthdate_text s).
Proof. exact c49_exact. Qed.
Print Assumptions C49_exact_partial.

(** ... so texts of other lengths are accepted, too. *)
Theorem C49_format_refuted : exists d s, dget d (u "birthdate") = Some (VStr s) /\
  (forall E K hdr, verify E K hdr C_oidc_OpenIDSchema d = (d, Ok true)) /\ ~ birthdate_strict s.
Proof.
  exists [(u "sub", VStr (u "diana")); (u "birthdate", VStr (u "2000-1-1"))], (u "2000-1-1").
  split; [reflexivity|]. split; [intros; vm_compute; reflexivity|].
  intro H. assert (L : List.length (u "2000-1-1") = 4%nat \/ List.length (u "2000-1-1") = 10%nat).
  { destruct H; [right|left|right]; reflexivity. }
  vm_compute in L. destruct L; discriminate.
Qed.
Print Assumptions C49_format_refuted.

Example C49_case :
  let run s := snd (verify sample (with_jar []) None C_oidc_OpenIDSchema
                      [(u "sub", VStr (u "diana")); (u "birthdate", VStr (u s))]) in
  run "2000-02-29"%string = Ok true /\ run "1900-02-29"%string = Err EVerificationError /\ run "1985"%string = Ok true /\
  run "0000-02-29"%string = Ok true /\ run "0000"%string = Err EVerificationError /\
  run "31-12-1999"%string = Err EVerificationError.
Proof. vm_compute. repeat split; reflexivity. Qed.

(** C78: the factories. *)
Theorem C78_oauth2 : forall n kws c d, oauth2_factory n kws = Ok (Some (c, d)) <->
  In (n, c) members_oauth2 /\ construct (cdef c) kws = Ok d.
Proof. exact c78_oauth2. Qed.
Print Assumptions C78_oauth2.

Theorem C78_oauth2_none : forall n kws, oauth2_factory n kws = Ok None <->
  (forall c, ~ In (n, c) members_oauth2) \/
  exists c, In (n, c) members_oauth2 /\ construct (cdef c) kws = Err EAttributeError.
Proof. exact c78_oauth2_none. Qed.
Print Assumptions C78_oauth2_none.

Theorem C78_oidc : forall n kws c, In (n, c) members_oidc ->
  (forall d, construct (cdef c) kws = Ok d -> oidc_factory n kws = Ok (Some (c, d))) /\
  (forall e, e <> EAttributeError -> construct (cdef c) kws = Err e -> oidc_factory n kws = Err e).
Proof. exact c78_oidc. Qed.
Print Assumptions C78_oidc.

Theorem C78_oidc_other : forall n kws, (forall c, ~ In (n, c) members_oidc) -> oidc_factory n kws = oauth2_factory n kws.
Proof. exact c78_oidc_other. Qed.
Print Assumptions C78_oidc_other.

Theorem C78_type : forall n c, In (n, c) members_oauth2 \/ In (n, c) members_oidc -> cls_name c = n.
Proof. exact member_name. Qed.
Print Assumptions C78_type.

Example C78_case :
  oauth2_factory (u "AuthorizationRequest") [(u "state", VStr (u "s"))] =
    Ok (Some (C_oauth2_AuthorizationRequest, [(u "state", VStr (u "s"))])) /\
  oidc_factory (u "AuthorizationRequest") [(u "state", VStr (u "s"))] =
    Ok (Some (C_oidc_AuthorizationRequest, [(u "state", VStr (u "s"))])) /\
  oidc_factory (u "CCAccessTokenRequest") [] =
    Ok (Some (C_oauth2_CCAccessTokenRequest, cd_default (cdef C_oauth2_CCAccessTokenRequest))) /\
  oidc_factory (u "Nonsense") [] = Ok None.
Proof. vm_compute. repeat split; reflexivity. Qed.
