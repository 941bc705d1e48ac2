(** Sample requests that are refused after their request object was read. *)
From Coq Require Import List NArith ZArith Bool String.
From Verif Require Import Base.Ustr Model.Cls Model.Value Model.Pspec Model.Tables Model.Message Model.Env Model.Verify Spec.FrameSpec Proofs.Samples Proofs.FrameLemmas.
Import ListNotations.
Open Scope list_scope.
Open Scope N_scope.

(** one more token: a signed request object without the scope openid *)
Definition fr_env : env := {|
  e_now := e_now sample;
  e_jws := fun v => match v with
                    | VStr s => if ueqb s (u "req.profile") then Ok (Some (tok_of rs256 (dset request_claims (u "scope") (VStr (u "profile")))))
                                else e_jws sample v
                    | _ => e_jws sample v
                    end;
  e_jwe := e_jwe sample; e_kj_true := e_kj_true sample; e_kj_in := e_kj_in sample; e_kj_keys := e_kj_keys sample;
  e_kj_update := e_kj_update sample; e_sig := e_sig sample; e_lhash := e_lhash sample; e_repr := e_repr sample;
  e_netloc_ok := e_netloc_ok sample |}.
Definition fr_request : dict value :=
  [(u "response_type", VList [VStr (u "code")]); (u "client_id", VStr (u "rp")); (u "scope", VList [VStr (u "openid")]);
   (u "redirect_uri", VStr (u "https://rp/other")); (u "state", VStr (u "s1")); (u "request", VStr (u "req.profile"))].
Definition fr_request1 : dict value := Eval vm_compute in fst (verify fr_env (with_jar []) None C_oidc_AuthorizationRequest fr_request).
Definition fr_registration : dict value :=
  [(u "redirect_uris", VList [VStr (u "https://rp/cb")]); (u "id_token_encrypted_response_alg", VStr (u "RSA-OAEP"));
   (u "x", VInt 1); (u "token_endpoint_auth_signing_alg", VStr (u "none"))].
Definition fr_registration1 : dict value := Eval vm_compute in fst (verify sample (with_jar []) None C_oidc_RegistrationRequest fr_registration).
Lemma fr_changed : ~ only_changed (may_write C_oidc_AuthorizationRequest) fr_request fr_request1.
Proof.
  intro H. apply (only_changed_get _ _ _ (u "state")) in H; [vm_compute in H; discriminate|].
  rewrite <- may_writeb_iff. vm_compute. discriminate.
Qed.
