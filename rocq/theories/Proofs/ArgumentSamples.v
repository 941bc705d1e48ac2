(** Sample keyword arguments. *)
From Coq Require Import List NArith ZArith Bool String.
From Verif Require Import Base.Ustr Base.UstrLemmas Model.Cls Model.Value Model.Pspec Model.Tables Model.Message Model.Env Model.Verify
  Spec.ArgumentSpec Proofs.Samples Proofs.ArgumentLemmas.
Import ListNotations.
Open Scope list_scope.
Open Scope N_scope.

Definition ar_strict : kwargs := with_jar
  [(u "skew", VInt 10); (u "iss", VStr (u "https://op")); (u "nonce", VStr (u "n0")); (u "client_id", VStr (u "rp")); (u "allowed_sign_alg", VStr (u "RS256"))].
Definition ar_lenient : kwargs := with_jar
  [(u "skew", VInt 10); (u "nonce", VStr (u "n0")); (u "verify", VBool false); (u "allow_sign_alg_none", VBool true)].
Definition ar_response : dict value :=
  [(u "code", VStr (u "co1")); (u "access_token", VStr (u "at1")); (u "token_type", VStr (u "Bearer")); (u "id_token", VStr (u "id.signed"))].
Definition ar_response1 : dict value := Eval vm_compute in fst (verify sample ar_strict None C_oidc_AuthorizationResponse ar_response).
Lemma ar_stricter : stricter ar_strict ar_lenient.
Proof.
  split; [reflexivity|]. intro k. unfold kget, ar_strict, ar_lenient. cbn [kw with_jar dget].
  destruct (ueqb k (u "skew")); [tauto|].
  destruct (ueqb k (u "iss")) eqn:X1; [apply ueqb_eq in X1; subst k; right; left; split; [cbn [In expectations]; tauto|reflexivity]|].
  destruct (ueqb k (u "nonce")); [tauto|].
  destruct (ueqb k (u "client_id")) eqn:X2; [apply ueqb_eq in X2; subst k; right; left; split; [cbn [In expectations]; tauto|reflexivity]|].
  destruct (ueqb k (u "allowed_sign_alg")) eqn:X3; [apply ueqb_eq in X3; subst k; right; left; split; [cbn [In expectations]; tauto|reflexivity]|].
  destruct (ueqb k (u "verify")) eqn:X4; [apply ueqb_eq in X4; subst k; right; right; split; [cbn [In indulgences]; tauto|reflexivity]|].
  destruct (ueqb k (u "allow_sign_alg_none")) eqn:X5; [apply ueqb_eq in X5; subst k; right; right; split; [cbn [In indulgences]; tauto|reflexivity]|].
  left. reflexivity.
Qed.
Definition usedb (c : cls) (k : ustr) : bool := existsb (fun bl => subclass c (fst bl) && umem k (snd bl)) uses.
Lemma ar_unused : forall c k, usedb c k = false -> ~ used c k.
Proof.
  intros c k H [b [l [I [Hs Hk]]]]. assert (X : usedb c k = true); [|congruence].
  apply existsb_exists. exists (b, l). split; [exact I|]. cbn [fst snd]. rewrite Hs. apply umem_In, Hk.
Qed.
