(** Cases for C165. *)
From Coq Require Import List NArith ZArith Bool String.
From Verif Require Import Base.Ustr Model.Cls Model.Value Model.Pspec Model.Tables Model.Json Model.Message Model.Env Model.Verify
  Spec.JsonSpec Spec.MessageSpec Spec.CodecSpec Spec.RoundTripSpec Spec.VerifySpec Spec.RequiredSpec Spec.ProtocolSpec
  Proofs.JsonLemmas Proofs.Deciders Proofs.RoundTripSamples.
Import ListNotations.
Open Scope list_scope.
Open Scope N_scope.

(** a request to exchange a token, RFC 8693 2.3 *)
Definition se_request : dict value :=
  [(u "grant_type", VStr (u "urn:ietf:params:oauth:grant-type:token-exchange")); (u "resource", VList [VStr (u "https://backend/api?a=1&b=2")]);
   (u "scope", VList [VStr (u "read"); VStr (u "write")]); (u "subject_token", VStr (u "accVkjcJyb4BWCxGsndESCJQbdFMogUC5PbRDqceLTC"));
   (u "subject_token_type", VStr (u "urn:ietf:params:oauth:token-type:access_token")); (u "client", VStr (u "rp 1"))].
Definition se_text : ustr := u "grant_type=urn%3Aietf%3Aparams%3Aoauth%3Agrant-type%3Atoken-exchange&resource=https%3A%2F%2Fbackend%2Fapi%3Fa%3D1%26b%3D2&scope=read+write&subject_token=accVkjcJyb4BWCxGsndESCJQbdFMogUC5PbRDqceLTC&subject_token_type=urn%3Aietf%3Aparams%3Aoauth%3Atoken-type%3Aaccess_token&client=rp+1".
Lemma se_request_has : forall a, In a [u "grant_type"; u "subject_token"; u "subject_token_type"] -> has_parameter se_request a.
Proof. intros a H. repeat (destruct H as [<-|H]; [eexists; split; [reflexivity|intros _ X; inversion X]|]). destruct H. Qed.
Lemma se_request_choices : spec_choices C_oauth2_TokenExchangeRequest se_request.
Proof.
  intros k p vs v H Hv. cbn [In spec_values] in H.
  repeat (match type of H with _ \/ _ => destruct H as [H|H]; [discriminate H|] end). destruct H.
Qed.
Lemma se_request_urlable : content urlable (cd_param (cdef C_oauth2_TokenExchangeRequest)) se_request.
Proof.
  split; [apply nodupb_ok; vm_compute; reflexivity|]. intros k v H. each H; (split; [vm_compute; reflexivity|]); spec_of_key;
    try (apply UrStr; [not_list|reflexivity|vm_compute; reflexivity|discriminate]).
  - apply (UrList _ TStr [u "https://backend/api?a=1&b=2"]); [reflexivity|left; reflexivity|left; reflexivity|texts_ok|blank_ok|discriminate|discriminate].
  - apply (UrList _ TStr [u "read"; u "write"]); [reflexivity|right; reflexivity|right; reflexivity|texts_ok|blank_ok|discriminate|discriminate].
  - apply UrAny; [vm_compute; reflexivity|discriminate].
Qed.

(** a response to an introspection of a token, RFC 7662 2.2 *)
Definition se_answer : dict value :=
  [(u "active", VBool false); (u "scope", VList [VStr (u "read"); VStr (u "dolphin")]); (u "exp", VInt 1419356238);
   (u "aud", VList [VStr (u "https://protected.example.net/resource")]); (u "extension_field", VStr (u "twenty-seven"))].
Definition se_json : ustr := u "{""active"": false, ""scope"": ""read dolphin"", ""exp"": 1419356238, ""aud"": [""https://protected.example.net/resource""], ""extension_field"": ""twenty-seven""}".
Lemma se_answer_has : forall a, In a [u "active"] -> has_parameter se_answer a.
Proof. intros a H. destruct H as [<-|[]]. eexists. split; [reflexivity|]. intros X. exfalso. apply X. reflexivity. Qed.
Lemma se_answer_choices : spec_choices C_oauth2_TokenIntrospectionResponse se_answer.
Proof.
  intros k p vs v H Hv. cbn [In spec_values] in H.
  repeat (match type of H with _ \/ _ => destruct H as [H|H]; [discriminate H|] end). destruct H.
Qed.
Lemma se_answer_canon : content canon (cd_param (cdef C_oauth2_TokenIntrospectionResponse)) se_answer.
Proof.
  split; [apply nodupb_ok; vm_compute; reflexivity|]. intros k v H. each H; (split; [vm_compute; reflexivity|]); spec_of_key; apply CnPlain; try is_plain.
  - apply PlBool; reflexivity.
  - sp_list [u "read"; u "dolphin"].
  - apply PlInt; reflexivity.
  - apply (PlList _ [u "https://protected.example.net/resource"]); [reflexivity|reflexivity|reflexivity|texts_ok|discriminate|discriminate].
Qed.
