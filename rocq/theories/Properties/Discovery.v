(** C153: discovery and registration go through. *)
From Coq Require Import List NArith ZArith Bool String.
From Verif Require Import Base.Ustr Model.Cls Model.Value Model.Pspec Model.Tables Model.Message Model.Env Model.Verify
  Spec.MessageSpec Spec.RoundTripSpec Spec.VerifySpec Spec.DiscoverySpec Proofs.DiscoveryLemmas Proofs.Samples Proofs.DiscoverySamples.
Import ListNotations.
Open Scope list_scope.
Open Scope N_scope.

(** metadata that follow the rules of Discovery are accepted, whatever the keyword arguments ... *)
Theorem C153_metadata : forall E K hdr host d, response_ok (cdef C_oidc_ProviderConfigurationResponse) d -> metadata_ok host d -> e_netloc_ok E host = true ->
  verify E K hdr C_oidc_ProviderConfigurationResponse d = (d, Ok true).
Proof. exact metadata_accepted. Qed.
Print Assumptions C153_metadata.

(** ... so the client that reads the document of the provider accepts it and has the metadata *)
Theorem C153_discovery : forall E K hdr host d, content canon (cd_param (cdef C_oidc_ProviderConfigurationResponse)) d -> covers_defaults (cdef C_oidc_ProviderConfigurationResponse) d ->
  response_ok (cdef C_oidc_ProviderConfigurationResponse) d -> metadata_ok host d -> e_netloc_ok E host = true ->
  exists t d', to_json (cdef C_oidc_ProviderConfigurationResponse) d = Ok t /\
    from_json (cdef C_oidc_ProviderConfigurationResponse) (cd_default (cdef C_oidc_ProviderConfigurationResponse)) t = (d', Ok tt) /\
    verify E K hdr C_oidc_ProviderConfigurationResponse d' = (d', Ok true) /\ forall k, dget d' k = dget d k.
Proof. exact discovery. Qed.
Print Assumptions C153_discovery.

(** the provider accepts the registration of the client and has its metadata, with the default methods of encryption *)
Theorem C153_registration : forall E K hdr d, content canon (cd_param (cdef C_oidc_RegistrationRequest)) d -> covers_defaults (cdef C_oidc_RegistrationRequest) d ->
  table_ok (cdef C_oidc_RegistrationRequest) d -> registration_ok d ->
  exists t d' dv, to_json (cdef C_oidc_RegistrationRequest) d = Ok t /\
    from_json (cdef C_oidc_RegistrationRequest) (cd_default (cdef C_oidc_RegistrationRequest)) t = (d', Ok tt) /\
    verify E K hdr C_oidc_RegistrationRequest d' = (dv, Ok true) /\ enc_filled d dv.
Proof. exact registering. Qed.
Print Assumptions C153_registration.

(** and the client accepts the response *)
Theorem C153_registered : forall E K hdr d, content canon (cd_param (cdef C_oidc_RegistrationResponse)) d -> covers_defaults (cdef C_oidc_RegistrationResponse) d ->
  response_ok (cdef C_oidc_RegistrationResponse) d -> (In (u "registration_client_uri") (map fst d) <-> In (u "registration_access_token") (map fst d)) ->
  exists t d', to_json (cdef C_oidc_RegistrationResponse) d = Ok t /\
    from_json (cdef C_oidc_RegistrationResponse) (cd_default (cdef C_oidc_RegistrationResponse)) t = (d', Ok tt) /\
    verify E K hdr C_oidc_RegistrationResponse d' = (d', Ok true) /\ forall k, dget d' k = dget d k.
Proof. exact registered. Qed.
Print Assumptions C153_registered.

Example C153_case_discovery : content canon (cd_param (cdef C_oidc_ProviderConfigurationResponse)) di_metadata /\ covers_defaults (cdef C_oidc_ProviderConfigurationResponse) di_metadata /\
  response_ok (cdef C_oidc_ProviderConfigurationResponse) di_metadata /\ metadata_ok (u "op.example") di_metadata /\ e_netloc_ok sample (u "op.example") = true.
Proof. split; [exact di_metadata_canon|]. split; [exact di_metadata_defaults|]. split; [apply di_metadata_ok|]. split; [apply di_metadata_ok|]. reflexivity. Qed.
Example C153_case_registration : content canon (cd_param (cdef C_oidc_RegistrationRequest)) di_registration /\ covers_defaults (cdef C_oidc_RegistrationRequest) di_registration /\
  table_ok (cdef C_oidc_RegistrationRequest) di_registration /\ registration_ok di_registration /\
  dget (fst (verify sample (with_jar []) None C_oidc_RegistrationRequest di_registration)) (u "id_token_encrypted_response_enc") = Some (VStr (u "A128CBC-HS256")).
Proof. split; [exact di_registration_canon|]. split; [exact di_registration_defaults|]. split; [apply di_registration_ok|]. split; [apply di_registration_ok|]. vm_compute. reflexivity. Qed.
Example C153_case_response : content canon (cd_param (cdef C_oidc_RegistrationResponse)) di_response /\ covers_defaults (cdef C_oidc_RegistrationResponse) di_response /\
  snd (verify sample (with_jar []) None C_oidc_RegistrationResponse di_response) = Ok true.
Proof. split; [exact di_response_canon|]. split; [exact di_response_defaults|]. vm_compute. reflexivity. Qed.
