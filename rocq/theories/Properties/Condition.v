(** C148, C149: parameters that come together, and what the caller expects. *)
From Coq Require Import List NArith ZArith Bool String.
From Verif Require Import Base.Ustr Model.Cls Model.Value Model.Pspec Model.Tables Model.Message Model.Env Model.Verify
  Spec.VerifySpec Spec.ConditionSpec Proofs.ConditionLemmas Proofs.Samples Proofs.ConditionSamples.
Import ListNotations.
Open Scope list_scope.
Open Scope N_scope.

(** C148: accepted messages obey the rules of [together] ... *)
Theorem C148_together_partial : forall E K hdr c d d' a b, In (c, a, b) together -> verify E K hdr c d = (d', Ok true) ->
  In a (names d') -> In b (names d').
Proof. exact kept_together. Qed.
Print Assumptions C148_together_partial.

(** ... but no one of those in [together_not_enforced].  Full statement: the above for [together ++ together_not_enforced] ... *)
Theorem C148_together_refuted : forall c a b, In (c, a, b) together_not_enforced ->
  exists E K hdr d d', verify E K hdr c d = (d', Ok true) /\ In a (names d) /\ ~ In b (names d) /\ ~ In b (names d').
Proof. exact lone. Qed.
Print Assumptions C148_together_refuted.

(** ... and parameters that exclude each other are accepted together.  Full statement: for [(c, a, b)] in [apart_not_enforced], if
    [verify E K hdr c d = (d', Ok true)], not both [a] and [b] are in [names d]. *)
Theorem C148_apart_refuted : forall c a b, In (c, a, b) apart_not_enforced ->
  exists E K hdr d d', verify E K hdr c d = (d', Ok true) /\ In a (names d) /\ In b (names d).
Proof. exact both. Qed.
Print Assumptions C148_apart_refuted.

(** each rule of [together]: a message with both is accepted, without the second it is refused or gets it *)
Example C148_case : forallb held_ok together = true /\
  snd (verify sample (with_jar []) None C_session_EndSessionRequest [(u "post_logout_redirect_uri", VStr (u "https://rp"))]) = Ok false /\
  snd (verify sample (with_jar []) None C_oidc_RegistrationResponse (dset (base C_oidc_RegistrationResponse) (u "registration_client_uri") (VStr (u "https://op/r")))) = Err EVerificationError.
Proof. vm_compute. auto. Qed.

(** C149: an accepted token is what the caller expects ... *)
Theorem C149_expected_partial : forall E K hdr c d d' arg k x, In (c, arg, k) expects -> verify E K hdr c d = (d', Ok true) ->
  kget K arg = Some (VStr x) -> exists v, dget d k = Some v /\ as_expected k v x.
Proof. exact met. Qed.
Print Assumptions C149_expected_partial.

(** ... where the class does not require the claim, it is enough to leave it out.  Full statement: the above for
    [expects ++ expects_in_vain]. *)
Theorem C149_absent_refuted : forall c arg k, In (c, arg, k) expects_in_vain ->
  exists E K hdr d d' x, verify E K hdr c d = (d', Ok true) /\ kget K arg = Some (VStr x) /\ dget d k = None.
Proof. exact vain. Qed.
Print Assumptions C149_absent_refuted.

Example C149_case :
  let run k c d := snd (verify sample (with_jar k) None c d) in
  run [(u "iss", VStr (u "https://op")); (u "client_id", VStr (u "rp"))] C_oidc_IdToken idt_claims = Ok true /\
  run [(u "client_id", VStr (u "other"))] C_oidc_IdToken idt_claims = Err ENotForMe /\
  run [(u "iss", VStr (u "https://op")); (u "aud", VStr (u "rp"))] C_session_LogoutToken logout_claims = Ok true /\
  run [(u "aud", VStr (u "other"))] C_session_LogoutToken logout_claims = Err ENotForMe /\
  run [(u "aud", VStr (u "rp"))] C_oidc_AuthnToken (dset idt_claims (u "jti") (VStr (u "j"))) = Ok true /\
  run [(u "aud", VStr (u "other"))] C_oidc_AuthnToken (dset idt_claims (u "jti") (VStr (u "j"))) = Err ENotForMe.
Proof. vm_compute. repeat split; reflexivity. Qed.
