(** A request in order for the examples about order and transport: that of the round trips with a nonce. *)
From Coq Require Import List NArith ZArith Bool String.
From Verif Require Import Base.Ustr Model.Cls Model.Value Model.Pspec Model.Tables Model.Message Model.Env Model.Verify
  Spec.JsonSpec Spec.MessageSpec Spec.CodecSpec Spec.RoundTripSpec Spec.VerifySpec
  Proofs.ValueLemmas Proofs.Deciders Proofs.VerifyLemmas Proofs.Samples Proofs.RoundTripSamples Proofs.ResponseLemmas Proofs.RequestObjectSamples.
Import ListNotations.
Open Scope list_scope.
Open Scope N_scope.

Definition or_request : dict value := rt_request ++ [(u "nonce", VStr (u "n0"))].
Lemma or_content : forall Q : option pspec -> value -> Prop,
  content Q (cd_param (cdef C_oidc_AuthorizationRequest)) rt_request ->
  Q (param_spec (cd_param (cdef C_oidc_AuthorizationRequest)) (u "nonce")) (VStr (u "n0")) ->
  content Q (cd_param (cdef C_oidc_AuthorizationRequest)) or_request.
Proof.
  intros Q [_ H] Hn. split; [apply nodupb_ok; vm_compute; reflexivity|]. intros k v Hk. unfold or_request in Hk. apply in_app_or in Hk.
  destruct Hk as [Hk|[Hk|[]]]; [exact (H k v Hk)|]. injection Hk as <- <-. split; [vm_compute; reflexivity|exact Hn].
Qed.
Lemma or_canon : content canon (cd_param (cdef C_oidc_AuthorizationRequest)) or_request.
Proof. apply or_content; [exact rt_request_canon|]. spec_of_key. apply CnPlain. is_plain. Qed.
Lemma or_urlable : content urlable (cd_param (cdef C_oidc_AuthorizationRequest)) or_request.
Proof. apply or_content; [exact rt_request_urlable|]. spec_of_key. apply UrStr; [not_list|reflexivity|vm_compute; reflexivity|discriminate]. Qed.
Lemma or_required : has_required (cdef C_oidc_AuthorizationRequest) or_request.
Proof. intros k s H Hr. unfold or_request. rewrite map_app. apply in_or_app. left. exact (rt_request_required k s H Hr). Qed.
Lemma or_rules : authz_rules ro_args or_request.
Proof. apply request_rules_true. vm_compute. reflexivity. Qed.
Definition or_text : ustr := okv [] (to_urlencoded (cdef C_oidc_AuthorizationRequest) false or_request).
Lemma or_reversed : forall k, dget (rev or_request) k = dget or_request k.
Proof.
  intro k. destruct (dget or_request k) as [v|] eqn:E.
  - apply In_dget; [rewrite map_rev; apply NoDup_rev, or_canon|]. rewrite <- in_rev. apply dget_In. exact E.
  - destruct (dget (rev or_request) k) as [v|] eqn:F; [|reflexivity]. apply dget_In in F. rewrite <- in_rev in F.
    rewrite (In_dget _ _ _ (proj1 or_canon) F) in E. discriminate.
Qed.
Lemma or_reversed_nodup : NoDup (map fst (rev or_request)).
Proof. rewrite map_rev. apply NoDup_rev, or_canon. Qed.
