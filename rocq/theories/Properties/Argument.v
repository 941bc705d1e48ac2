(** C130, C131: the keyword arguments of verify(). *)
From Coq Require Import List NArith ZArith Bool String.
From Verif Require Import Base.Ustr Model.Cls Model.Value Model.Pspec Model.Tables Model.Message Model.Env Model.Verify
  Spec.ArgumentSpec Proofs.Samples Proofs.ArgumentLemmas Proofs.ArgumentSamples.
Import ListNotations.
Open Scope list_scope.
Open Scope N_scope.

(** C130: a message that is accepted with more expectations and fewer indulgences is accepted without them, and what is left in
    the message is the same. *)
Theorem C130_narrowing : forall E K1 K2 hdr c d d', keys_blind E -> stricter K2 K1 ->
  verify E K2 hdr c d = (d', Ok true) -> verify E K1 hdr c d = (d', Ok true).
Proof. exact c130. Qed.
Print Assumptions C130_narrowing.

(** The same for any key jar, if the arguments that are passed to it are the same. *)
Theorem C130_any_key_jar : forall E K1 K2 hdr c d d', stricter K2 K1 ->
  (forall k, In k [u "client_id"; u "allowed_sign_alg"; u "allow_sign_alg_none"] -> kget K1 k = kget K2 k) ->
  verify E K2 hdr c d = (d', Ok true) -> verify E K1 hdr c d = (d', Ok true).
Proof. exact c130_plain. Qed.
Print Assumptions C130_any_key_jar.

Example C130_case : keys_blind sample /\ stricter ar_strict ar_lenient /\
  verify sample ar_strict None C_oidc_AuthorizationResponse ar_response = (ar_response1, Ok true) /\
  verify sample ar_lenient None C_oidc_AuthorizationResponse ar_response = (ar_response1, Ok true) /\
  dget ar_response1 (u "__verified_id_token") <> None /\
  (** each of the expectations, and each of the indulgences, decides about some message *)
  snd (verify sample ar_strict None C_oidc_AuthorizationResponse (dset ar_response (u "id_token") (VStr (u "id.none")))) = Err EUnsupportedAlgorithm /\
  snd (verify sample ar_lenient None C_oidc_AuthorizationResponse (dset ar_response (u "id_token") (VStr (u "id.none")))) = Ok true /\
  snd (verify sample (with_jar [(u "nonce", VStr (u "n1"))]) None C_oidc_AuthorizationResponse ar_response) = Err EValueError /\
  snd (verify sample (with_jar [(u "iss", VStr (u "https://evil"))]) None C_oidc_AuthorizationResponse ar_response) = Err EIssuerMismatch /\
  snd (verify sample (with_jar [(u "client_id", VStr (u "other"))]) None C_oidc_AuthorizationResponse ar_response) = Err ENotForMe /\
  snd (verify sample (with_jar [(u "allowed_sign_alg", VStr (u "ES256"))]) None C_oidc_AuthorizationResponse ar_response) = Err EUnsupportedAlgorithm.
Proof.
  split; [intros i b tok a1 a2 _; reflexivity|]. split; [exact ar_stricter|].
  repeat split; try (vm_compute; reflexivity). vm_compute. discriminate.
Qed.

(** C131: verify() gives the same result for arguments that differ only in names which its class does not use. *)
Theorem C131_other_arguments : forall E K1 K2 hdr c d, (forall k, used c k -> kget K1 k = kget K2 k) -> (uses_jar c = true -> kw_jar K1 = kw_jar K2) ->
  verify E K1 hdr c d = verify E K2 hdr c d.
Proof. exact c131. Qed.
Print Assumptions C131_other_arguments.

(** An ID Token ignores [aud], a logout token [client_id]: what is used under the right name is not checked under another. *)
Example C131_case : (~ used C_oidc_IdToken (u "aud")) /\ (~ used C_session_LogoutToken (u "client_id")) /\ uses_jar C_oidc_IdToken = false /\
  (forall E hdr d, verify E {| kw := [(u "aud", VStr (u "other")); (u "nonce", VStr (u "n0"))]; kw_jar := false |} hdr C_oidc_IdToken d =
                   verify E (with_jar [(u "nonce", VStr (u "n0"))]) hdr C_oidc_IdToken d) /\
  snd (verify sample (with_jar [(u "aud", VStr (u "other")); (u "nonce", VStr (u "n0"))]) None C_oidc_IdToken idt_claims) = Ok true /\
  snd (verify sample (with_jar [(u "client_id", VStr (u "other")); (u "nonce", VStr (u "n0"))]) None C_oidc_IdToken idt_claims) = Err ENotForMe /\
  snd (verify sample (with_jar [(u "client_id", VStr (u "other"))]) None C_session_LogoutToken logout_claims) = Ok true /\
  snd (verify sample (with_jar [(u "aud", VStr (u "other"))]) None C_session_LogoutToken logout_claims) = Err ENotForMe.
Proof.
  split; [exact (ar_unused C_oidc_IdToken (u "aud") eq_refl)|]. split; [exact (ar_unused C_session_LogoutToken (u "client_id") eq_refl)|]. split; [reflexivity|].
  split; [|repeat split; vm_compute; reflexivity].
  intros E hdr d. apply C131_other_arguments; [|discriminate]. intros k Hk. unfold kget. cbn [kw with_jar dget].
  destruct (ueqb k (u "aud")) eqn:X; [|reflexivity]. apply ueqb_eq in X. subst k. exfalso. exact (ar_unused C_oidc_IdToken (u "aud") eq_refl Hk).
Qed.
