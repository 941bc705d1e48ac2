(** A provider with two clients, rp with the key 7 and evil with the key 66, and request objects. *)
From Coq Require Import List NArith ZArith Bool String.
From Verif Require Import Base.Ustr Model.Cls Model.Value Model.Pspec Model.Tables Model.Json Model.Message Model.Env Model.Verify
  Spec.MessageSpec Spec.VerifySpec Spec.ClockSpec Spec.RequestRuleSpec Proofs.Samples.
Import ListNotations.
Open Scope list_scope.
Open Scope N_scope.

Definition rr_tokens : list (ustr * (N * token)) :=
  [(u "good", (7, tok_of rs256 request_claims));
   (u "by.evil", (66, tok_of rs256 request_claims));
   (u "unsigned", (0, tok_of alg_none request_claims));
   (u "expired", (7, tok_of rs256 (request_claims ++ [(u "exp", VInt 1)])));
   (u "nested", (7, tok_of rs256 (request_claims ++ [(u "request", VStr (u "forged"))])))].
Definition rr : env := {|
  e_now := 1000;
  e_jws := fun v => match v with VStr s => Ok (match dget rr_tokens s with Some (_, t) => Some t | None => None end) | _ => Err ETypeError end;
  e_jwe := fun _ _ _ => Ok None;
  e_kj_true := true;
  e_kj_in := fun v => Ok true;
  e_kj_keys := fun _ _ _ args => Ok (match dget args (u "opponent_id") with
    | Some (VStr c) => if ueqb c (u "rp") then [7] else if ueqb c (u "evil") then [66] else []
    | _ => []
    end);
  e_kj_update := fun _ => Ok tt;
  e_sig := fun t _ keys => match dget rr_tokens t with Some (k, _) => if existsb (N.eqb k) keys then Ok tt else Err ECrypto | None => Err ECrypto end;
  e_lhash := fun _ _ => Err EAttributeError;
  e_repr := fun _ => Err EAttributeError;
  e_netloc_ok := fun _ => true |}.
Definition rr_request (client : string) (t : ustr) : dict value :=
  [(u "response_type", VList [VStr (u "code")]); (u "client_id", VStr (u client)); (u "scope", VList [VStr (u "openid")]);
   (u "redirect_uri", VStr (u "https://rp/cb")); (u "request", VStr t)].
Definition rr_json : ustr := u "{""response_type"": ""code"", ""client_id"": ""rp"", ""scope"": ""openid"", ""redirect_uri"": ""https://evil/cb""}".
Definition rr_run (client : string) (t : ustr) : dict value * res bool :=
  verify rr (with_jar [(u "alg", VStr (u "RS256"))]) None C_oidc_AuthorizationRequest (rr_request client t).
Definition rr_res (client : string) (t : ustr) : dict value := fst (rr_run client t).
Definition rr_evil : dict value := Eval vm_compute in rr_res "evil" (u "by.evil").
Definition rr_unsigned : dict value := Eval vm_compute in rr_res "rp" (u "unsigned").
Definition rr_plain : dict value := Eval vm_compute in rr_res "rp" rr_json.
Definition rr_expired : dict value := Eval vm_compute in rr_res "rp" (u "expired").
Definition rr_nested : dict value := Eval vm_compute in rr_res "rp" (u "nested").
Definition rr_good : dict value := Eval vm_compute in rr_res "rp" (u "good").
Lemma rr_plaintext : forall t, not_encrypted rr t.
Proof. intros t i a. reflexivity. Qed.
