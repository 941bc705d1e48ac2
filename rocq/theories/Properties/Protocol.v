(** C132 - C135: the tables of the library against the specifications of OAuth2 and OpenID Connect. *)
From Coq Require Import List NArith ZArith Bool String.
From Verif Require Import Base.Ustr Model.Cls Model.Value Model.Pspec Model.Tables Model.Json Model.Message Model.Env Model.Verify
  Spec.JsonSpec Spec.MessageSpec Spec.CodecSpec Spec.VerifySpec Spec.RoundTripSpec Spec.WireSpec Spec.RequiredSpec Spec.ProtocolSpec
  Proofs.Samples Proofs.ProtocolLemmas Proofs.ProtocolSamples.
Import ListNotations.
Open Scope list_scope.
Open Scope N_scope.

(** C132: a JSON document with parameters of the specification, each of its type there, is read: the message has
    these values, and beyond them only the defaults ... *)
Theorem C132_read_partial : forall c ps l t, In (c, ps) spec_types -> spec_document ps l -> json_loads t = Ok (VDict (as_json l)) ->
  exists d, from_json (cdef c) (cd_default (cdef c)) t = (d, Ok tt) /\
    (forall k v w, In (k, v, w) l -> dget d k = Some w) /\
    forall k, ~ In k (map name_of l) -> dget d k = dget (cd_default (cdef c)) k.
Proof. exact c132_read. Qed.
Print Assumptions C132_read_partial.

Example C132_read_case : In (C_oidc_AuthorizationRequest, oidc_request_types) spec_types /\ spec_document oidc_request_types pr_request /\
  json_loads pr_request_text = Ok (VDict (as_json pr_request)) /\
  from_json (cdef C_oidc_AuthorizationRequest) [] pr_request_text = (as_message pr_request, Ok tt) /\
  dget (as_message pr_request) (u "max_age") = Some (VInt 10000) /\
  dget (as_message pr_request) (u "prompt") = Some (VList [VStr (u "login"); VStr (u "consent")]).
Proof.
  split; [|split; [exact pr_request_spec|vm_compute; repeat split; reflexivity]].
  unfold spec_types. repeat (left; reflexivity) || (repeat (first [left; reflexivity|right])).
Qed.

(** ... and whatever was read, a parameter of a type that is a text, a number, a truth value or a list of texts has a value of
    this type, or null; the documents that give a dictionary for a list are left out, C05. *)
Theorem C132_typed_partial : forall c ps k p l v, In (c, ps) spec_types -> In (k, p) ps -> no_dict_for_list (cd_param (cdef c)) l ->
  dget (fst (from_dict (cdef c) (cd_default (cdef c)) (VDict l))) k = Some v -> v = VNone \/ typed_value p v.
Proof. exact c132_typed. Qed.
Print Assumptions C132_typed_partial.

Example C132_typed_case : let R := fun v => dget (fst (from_dict (cdef C_oidc_AuthorizationRequest) [] (VDict [(u "max_age", v)]))) (u "max_age") in
  In (u "max_age", PInt) oidc_request_types /\ no_dict_for_list (cd_param (cdef C_oidc_AuthorizationRequest)) [(u "max_age", VStr (u "7"))] /\
  R (VStr (u "7")) = Some (VInt 7) /\ R (VStr (u "soon")) = None /\ R (VList [VInt 7]) = None.
Proof.
  split; [vm_compute; tauto|]. split; [|vm_compute; repeat split; reflexivity].
  intros k e s t [H|[]]. discriminate.
Qed.

(** The key in an ID Token of a self-issued provider has to be an object and nationalities are an array: both are refused. *)
Theorem C132_refused_refuted : forall c k p v w d, In (c, (k, p)) spec_types_refused -> spec_value p v w ->
  from_dict (cdef c) d (VDict [(k, v)]) = (d, Err EValueError).
Proof. exact c132_refused. Qed.
Print Assumptions C132_refused_refuted.

Example C132_refused_case : from_dict (cdef C_oidc_IdToken) [] (VDict [(u "sub_jwk", VDict pr_jwk)]) = ([], Err EValueError) /\
  from_dict (cdef C_ida_IdentityAssuranceClaims) [] (VDict [(u "nationalities", VList [VStr (u "DE"); VStr (u "SE")])]) = ([], Err EValueError) /\
  (** a text, which the specification does not have, is taken *)
  from_dict (cdef C_ida_IdentityAssuranceClaims) [] (VDict [(u "nationalities", VStr (u "DE"))]) <> ([], Err EValueError).
Proof. vm_compute. repeat split; try reflexivity. discriminate. Qed.

(** Parameters that the library names otherwise or not at all may have any value. *)
Theorem C132_untyped_refuted : forall c k p v, In (c, (k, p)) spec_types_untyped -> ~ blank v ->
  from_dict (cdef c) [] (VDict [(k, v)]) = ([(k, v)], Ok tt).
Proof. exact c132_untyped. Qed.
Print Assumptions C132_untyped_refuted.

Example C132_untyped_case :
  from_dict (cdef C_oidc_RegistrationRequest) [] (VDict [(u "backchannel_logout_session_required", VStr (u "maybe"))]) =
    ([(u "backchannel_logout_session_required", VStr (u "maybe"))], Ok tt) /\
  from_dict (cdef C_oidc_RegistrationRequest) [] (VDict [(u "frontchannel_logout_session_required", VStr (u "maybe"))]) = ([], Err EValueError).
Proof. vm_compute. split; reflexivity. Qed.

(** C133: verify() raises no NotAllowedValue if the parameters with enumerated values have values of the specification ... *)
Theorem C133_values_partial : forall E K hdr c d, In c (map fst spec_values) -> spec_choices c d -> without_tokens d ->
  snd (verify E K hdr c d) <> Err ENotAllowedValue.
Proof. exact c133. Qed.
Print Assumptions C133_values_partial.

Example C133_case : In C_oidc_AuthorizationRequest (map fst spec_values) /\ spec_choices C_oidc_AuthorizationRequest pr_choose /\ without_tokens pr_choose /\
  snd (verify sample (with_jar []) None C_oidc_AuthorizationRequest pr_choose) = Ok true /\
  snd (verify sample (with_jar []) None C_oidc_AuthorizationRequest (dset pr_choose (u "display") (VStr (u "tv")))) = Err ENotAllowedValue /\
  snd (verify sample (with_jar []) None C_oidc_AuthorizationRequest (dset pr_choose (u "prompt") (VList [VStr (u "login"); VStr (u "pay")]))) = Err ENotAllowedValue.
Proof. split; [vm_compute; tauto|]. split; [exact pr_choose_choices|]. split; [split; reflexivity|]. vm_compute. repeat split; reflexivity. Qed.

(** ... except for these values. *)
Theorem C133_values_refuted : forall E K hdr c k t, In (c, (k, t)) spec_values_more ->
  verify E K hdr c [(k, VStr t)] = ([(k, VStr t)], Err ENotAllowedValue).
Proof. exact c133_more. Qed.
Print Assumptions C133_values_refuted.

Example C133_refuted_case : let V := fun t => snd (verify sample (with_jar []) None C_oidc_AuthorizationErrorResponse [(u "error", VStr (u t))]) in
  V "account_selection_required"%string = Err ENotAllowedValue /\ V "session_selection_required"%string = Ok true /\ V "login_required"%string = Ok true.
Proof. vm_compute. repeat split; reflexivity. Qed.

(** C134: a message with all parameters that the specification requires is accepted, if enumerated parameters have values of
    the specification and the error description has the characters that verify() takes, C24. *)
Theorem C134_demands_partial : forall E K hdr c l d, In (c, l) spec_demands -> (forall a, In a l -> has_parameter d a) -> spec_choices c d ->
  (forall v, subclass c C_oauth2_ResponseMessage = true -> dget d (u "error_description") = Some v -> desc_ok v) ->
  verify E K hdr c d = (d, Ok true).
Proof. exact c134. Qed.
Print Assumptions C134_demands_partial.

Example C134_case : In (C_oauth2_TokenErrorResponse, [u "error"]) spec_demands /\ has_parameter pr_error (u "error") /\
  spec_choices C_oauth2_TokenErrorResponse pr_error /\ (forall v, dget pr_error (u "error_description") = Some v -> desc_ok v) /\
  snd (verify sample (with_jar []) None C_oauth2_TokenErrorResponse pr_error) = Ok true /\
  snd (verify sample (with_jar []) None C_oauth2_TokenErrorResponse (dset pr_error (u "error") (VStr (u "no_scope")))) = Err ENotAllowedValue.
Proof.
  split; [vm_compute; tauto|]. split; [exists (VStr (u "invalid_scope")); split; [reflexivity|intros _ X; inversion X]|].
  split; [exact pr_error_choices|]. split; [exact pr_error_desc|]. vm_compute. split; reflexivity.
Qed.

(** These messages are refused without a parameter that the specification leaves out, with whatever else they have. *)
Theorem C134_demands_refuted : forall E K hdr c k d, In (c, k) demanded_more -> dget d k = None -> snd (verify E K hdr c d) <> Ok true.
Proof. exact c134_more. Qed.
Print Assumptions C134_demands_refuted.

Example C134_refuted_case :
  snd (verify sample (with_jar []) None C_oauth2_ASConfigurationResponse
    [(u "issuer", VStr (u "https://op")); (u "response_types_supported", VList [VStr (u "code")])]) = Err EMissingRequiredAttribute /\
  snd (verify sample (with_jar []) None C_oauth2_ASConfigurationResponse
    [(u "issuer", VStr (u "https://op")); (u "response_types_supported", VList [VStr (u "code")]); (u "grant_types_supported", VList [VStr (u "implicit")])]) = Ok true.
Proof. vm_compute. split; reflexivity. Qed.

(** C135: what a message has for a parameter that the document did not have is a default of the specification, or one of the
    four other_defaults. *)
Theorem C135_only_partial : forall c l d k v, NoDup (map fst l) -> from_dict (cdef c) (cd_default (cdef c)) (VDict l) = (d, Ok tt) -> ~ In k (map fst l) ->
  dget d k = Some v -> In (c, (k, v)) spec_defaults \/ In (c, (k, v)) other_defaults.
Proof. exact c135_only. Qed.
Print Assumptions C135_only_partial.

(** These are indeed filled in ... *)
Theorem C135_filled_partial : forall c l d k v, In (c, (k, v)) spec_defaults \/ In (c, (k, v)) other_defaults -> NoDup (map fst l) ->
  from_dict (cdef c) (cd_default (cdef c)) (VDict l) = (d, Ok tt) -> ~ In k (map fst l) -> dget d k = Some v.
Proof. exact c135_filled. Qed.
Print Assumptions C135_filled_partial.

Example C135_case : exists d, from_dict (cdef C_oidc_RegistrationRequest) (cd_default (cdef C_oidc_RegistrationRequest))
    (VDict [(u "redirect_uris", VList [VStr (u "https://rp/cb")]); (u "response_types", VList [VStr (u "id_token")])]) = (d, Ok tt) /\
  dget d (u "application_type") = Some (VStr (u "web")) /\ dget d (u "response_types") = Some (VList [VStr (u "id_token")]) /\
  dget d (u "grant_types") = None.
Proof. eexists. vm_compute. repeat split; reflexivity. Qed.

(** ... but these defaults of the specification are not: a provider that says nothing about request_uris is taken for one
    that requires their registration. *)
Theorem C135_defaults_refuted : (forall c l d k v, In (c, (k, v)) spec_defaults_more -> NoDup (map fst l) ->
    from_dict (cdef c) (cd_default (cdef c)) (VDict l) = (d, Ok tt) -> ~ In k (map fst l) -> dget d k <> Some v) /\
  exists d, from_dict (cdef C_oidc_ProviderConfigurationResponse) (cd_default (cdef C_oidc_ProviderConfigurationResponse))
    (VDict [(u "issuer", VStr (u "https://op"))]) = (d, Ok tt) /\
  dget d (u "require_request_uri_registration") = Some (VBool true) /\
  In (C_oidc_ProviderConfigurationResponse, (u "require_request_uri_registration", VBool false)) spec_defaults_more.
Proof. split; [exact c135_more|]. eexists. split; [vm_compute; reflexivity|]. split; [reflexivity|]. vm_compute. tauto. Qed.
Print Assumptions C135_defaults_refuted.
