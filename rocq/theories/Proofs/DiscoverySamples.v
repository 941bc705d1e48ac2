(** Metadata and registrations for the examples of C153. *)
From Coq Require Import List NArith ZArith Bool String Lia.
From Verif Require Import Base.Ustr Model.Cls Model.Value Model.Pspec Model.Tables Model.Message Model.Env Model.Verify
  Spec.JsonSpec Spec.MessageSpec Spec.CodecSpec Spec.RoundTripSpec Spec.VerifySpec Spec.DiscoverySpec Proofs.ValueLemmas Proofs.Deciders Proofs.VerifyLemmas Proofs.OtherVerify Proofs.RoundTripSamples Proofs.Samples.
Import ListNotations.
Open Scope list_scope.
Open Scope N_scope.

Definition di_metadata : dict value := cd_default (cdef C_oidc_ProviderConfigurationResponse) ++ provider "https://op.example/tenant" ++ [(u "op_policy_uri", VStr (u "https://op.example/policy?v=1"))].
Definition di_registration : dict value := cd_default (cdef C_oidc_RegistrationRequest) ++
  [(u "redirect_uris", VList [VStr (u "https://rp/cb?x=1")]); (u "contacts", VList [VStr (u "a@b")]); (u "id_token_encrypted_response_alg", VStr (u "RSA-OAEP")); (u "initiate_login_uri", VStr (u "https://rp/login"))].
Definition di_response : dict value := cd_default (cdef C_oidc_RegistrationResponse) ++
  [(u "client_id", VStr (u "c1")); (u "redirect_uris", VList [VStr (u "https://rp/cb?x=1")]); (u "registration_client_uri", VStr (u "https://op/reg/c1")); (u "registration_access_token", VStr (u "t"))].
Ltac str_list := match goal with |- plain _ (VList ?l) => let l' := eval cbv in (map (fun v => match v with VStr s => s | _ => [] end) l) in
  change (VList l) with (VList (map VStr l')) end; first
  [ apply PlList; [reflexivity|reflexivity|reflexivity|texts_ok|discriminate|discriminate] | apply PlSpSep; [reflexivity|reflexivity|reflexivity|texts_ok|blank_ok|discriminate|discriminate] ].
Ltac content_ok := split; [apply nodupb_ok; vm_compute; reflexivity|]; let k := fresh in let v := fresh in let H := fresh in intros k v H; each H; (split; [vm_compute; reflexivity|]);
  spec_of_key; apply CnPlain; first [is_plain | apply PlBool; reflexivity | str_list].
Lemma di_metadata_canon : content canon (cd_param (cdef C_oidc_ProviderConfigurationResponse)) di_metadata.
Proof. content_ok. Qed.
Lemma di_registration_canon : content canon (cd_param (cdef C_oidc_RegistrationRequest)) di_registration.
Proof. content_ok. Qed.
Lemma di_response_canon : content canon (cd_param (cdef C_oidc_RegistrationResponse)) di_response.
Proof. content_ok. Qed.
Ltac defaults_ok := let k := fresh in let H := fresh in intros k H; vm_compute in H; repeat (destruct H as [<-|H]; [vm_compute; tauto|]); destruct H.
Lemma di_metadata_defaults : covers_defaults (cdef C_oidc_ProviderConfigurationResponse) di_metadata.
Proof. defaults_ok. Qed.
Lemma di_registration_defaults : covers_defaults (cdef C_oidc_RegistrationRequest) di_registration.
Proof. defaults_ok. Qed.
Lemma di_response_defaults : covers_defaults (cdef C_oidc_RegistrationResponse) di_response.
Proof. defaults_ok. Qed.
Lemma di_metadata_ok : response_ok (cdef C_oidc_ProviderConfigurationResponse) di_metadata /\ metadata_ok (u "op.example") di_metadata.
Proof.
  split; [apply (proj1 (response_verify_ok _ _ true)); vm_compute; reflexivity|]. constructor.
  - exists (u "https://op.example/tenant"), (u "/tenant"). split; [vm_compute; reflexivity|]. constructor.
    + reflexivity.
    + intros c H. vm_compute in H. repeat (destruct H as [<-|H]; [split; [reflexivity|vm_compute; intuition discriminate]|]). destruct H.
    + right. exists (u "tenant"). reflexivity.
    + intros c H. vm_compute in H. repeat (destruct H as [<-|H]; [split; [reflexivity|vm_compute; intuition discriminate]|]). destruct H.
  - intros v H. vm_compute in H. injection H as <-. exists [u "openid"; u "email"]. split; [reflexivity|]. split; [left; reflexivity|].
    intros s c Hs Hc. destruct Hs as [<-|[<-|[]]]; vm_compute in Hc; repeat (destruct Hc as [<-|Hc]; [unfold scope_char_but_excl; lia|]); destruct Hc.
  - exists [u "RS256"]. split; [vm_compute; reflexivity|left; reflexivity].
  - exists [u "code"]. vm_compute. reflexivity.
  - eexists. vm_compute. reflexivity.
Qed.
Lemma di_registration_ok : table_ok (cdef C_oidc_RegistrationRequest) di_registration /\ registration_ok di_registration.
Proof. apply (proj1 (c44_accept sample (with_jar []) None di_registration)). eexists. vm_compute. reflexivity. Qed.
