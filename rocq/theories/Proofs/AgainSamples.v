(** Sample requests that are verified twice. *)
From Coq Require Import List NArith ZArith Bool String.
From Verif Require Import Base.Ustr Model.Cls Model.Value Model.Pspec Model.Tables Model.Message Model.Env Model.Verify Proofs.Samples.
Import ListNotations.
Open Scope list_scope.
Open Scope N_scope.

Definition ag_secured : dict value := [(u "request", VStr (u "req.signed"))].
Definition ag_request (jwt : ustr) : dict value :=
  [(u "response_type", VList [VStr (u "code")]); (u "client_id", VStr (u "rp")); (u "scope", VList [VStr (u "openid")]);
   (u "redirect_uri", VStr (u "https://rp/cb")); (u "request", VStr jwt)].
Definition ag_after (c : cls) (d : dict value) : dict value := fst (verify sample (with_jar []) None c d).
Definition ag_secured1 : dict value := Eval vm_compute in ag_after C_oauth2_JWTSecuredAuthorizationRequest ag_secured.
Definition ag_signed1 : dict value := Eval vm_compute in ag_after C_oidc_AuthorizationRequest (ag_request (u "req.signed")).
Definition ag_signed2 : dict value := Eval vm_compute in ag_after C_oidc_AuthorizationRequest ag_signed1.
Definition ag_noclient1 : dict value := Eval vm_compute in ag_after C_oidc_AuthorizationRequest (ag_request (u "req.noclient")).
