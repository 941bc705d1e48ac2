(** C170: a skew that is no number is an error of the caller, for every token. *)
From Coq Require Import List NArith ZArith Bool String.
From Verif Require Import Base.Ustr Base.UstrLemmas Model.Cls Model.Value Model.Tables Model.Message Model.Env Model.Verify Spec.VerifySpec Spec.SkewSpec
  Proofs.Samples Proofs.SkewLemmas.
Import ListNotations.
Open Scope list_scope.
Open Scope N_scope.

(** an ID Token that is in order is neither accepted nor reported as expired *)
Theorem C170_id_token : forall E K K' hdr d v, not_number v -> with_arg (u "skew") v K K' \/ with_arg (u "nonce_storage_time") v K K' ->
  verify E K hdr C_oidc_IdToken d = (d, Ok true) -> verify E K' hdr C_oidc_IdToken d = (d, Err ETypeError).
Proof. exact skew_id_token. Qed.
Print Assumptions C170_id_token.

(** a JSON Web Token only if there is a time to check *)
Theorem C170_jwt : forall E K K' hdr c d v, subclass c C_oidc_JsonWebToken = true -> not_number v -> with_arg (u "skew") v K K' ->
  verify E K hdr c d = (d, Ok true) -> verify E K' hdr c d = if existsb (dhas d) [u "exp"; u "iat"; u "nbf"] then (d, Err ETypeError) else (d, Ok true).
Proof. exact skew_jwt. Qed.
Print Assumptions C170_jwt.

Theorem C170_logout : forall E K K' hdr d v, not_number v -> with_arg (u "skew") v K K' ->
  verify E K hdr C_session_LogoutToken d = (d, Ok true) -> verify E K' hdr C_session_LogoutToken d = (d, Err ETypeError).
Proof. exact skew_logout. Qed.
Print Assumptions C170_logout.

Example C170_case :
  let text := with_jar [(u "skew", VStr (u "300"))] in
  with_arg (u "skew") (VStr (u "300")) (with_jar []) text /\
  snd (verify sample (with_jar []) None C_oidc_IdToken idt_claims) = Ok true /\ snd (verify sample text None C_oidc_IdToken idt_claims) = Err ETypeError /\
  snd (verify sample (with_jar [(u "nonce_storage_time", VNone)]) None C_oidc_IdToken idt_claims) = Err ETypeError /\
  snd (verify sample text None C_oidc_JsonWebToken [(u "exp", VInt 5000)]) = Err ETypeError /\
  snd (verify sample text None C_oidc_JsonWebToken [(u "iss", VStr (u "a"))]) = Ok true /\
  snd (verify sample (with_jar []) (Some rs256) C_session_LogoutToken logout_claims) = Ok true /\
  snd (verify sample text (Some rs256) C_session_LogoutToken logout_claims) = Err ETypeError.
Proof.
  split; [|vm_compute; repeat split]. split; [reflexivity|]. intros k Hk. unfold kget. cbn [kw with_jar dget].
  destruct (ueqb k (u "skew")) eqn:Ek; [apply ueqb_eq in Ek; congruence|reflexivity].
Qed.
