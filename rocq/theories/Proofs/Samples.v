(** A sample environment for the examples: a few tokens by name, one known issuer, one key. *)
From Coq Require Import List NArith ZArith QArith Bool String.
From Verif Require Import Base.Ustr Model.Cls Model.Value Model.Pspec Model.Tables Model.Json Model.Message Model.Env
  Model.Verify Spec.MessageSpec Spec.VerifySpec Proofs.VerifyLemmas.
Import ListNotations.
Open Scope list_scope.
Open Scope N_scope.

Definition rs256 : dict value := [(u "alg", VStr (u "RS256")); (u "kid", VStr (u "k1"))].
Definition alg_none : dict value := [(u "alg", VStr (u "none"))].
Definition tok_of (h p : dict value) : token := {| t_hdr := h; t_body := Ok (VDict p) |}.

Definition idt_claims : dict value :=
  [(u "iss", VStr (u "https://op")); (u "sub", VStr (u "diana")); (u "aud", VList [VStr (u "rp")]);
   (u "exp", VInt 2000); (u "iat", VInt 900); (u "nonce", VStr (u "n0"));
   (u "at_hash", VStr (u "HS256:at")); (u "c_hash", VStr (u "HS256:co"))].
Definition request_claims : dict value :=
  [(u "response_type", VStr (u "code")); (u "client_id", VStr (u "rp")); (u "scope", VStr (u "openid"));
   (u "redirect_uri", VStr (u "https://rp/cb")); (u "nonce", VStr (u "n1"))].
Definition logout_claims : dict value :=
  [(u "iss", VStr (u "https://op")); (u "sub", VStr (u "diana")); (u "aud", VList [VStr (u "rp")]);
   (u "iat", VInt 900); (u "jti", VStr (u "j1"));
   (u "events", VDict [(u "http://schemas.openid.net/event/backchannel-logout", VDict [])])].

Definition tokens : list (ustr * token) :=
  [(u "id.signed", tok_of rs256 idt_claims);
   (u "id.none", tok_of alg_none idt_claims);
   (u "id.forged", tok_of rs256 idt_claims);
   (u "id.unknown", tok_of rs256 (dset idt_claims (u "iss") (VStr (u "https://evil"))));
   (u "id.noiss", tok_of rs256 (ddel idt_claims (u "iss")));
   (u "id.null", tok_of rs256 (dset idt_claims (u "name") VNone));
   (u "req.signed", tok_of rs256 request_claims);
   (u "req.noclient", tok_of rs256 (ddel (ddel request_claims (u "client_id")) (u "redirect_uri")));
   (u "lo.signed", tok_of rs256 logout_claims);
   (u "lo.none", tok_of alg_none logout_claims);
   (u "lo.forged", tok_of rs256 logout_claims)].

Definition sample : env := {|
  e_now := 1000;
  e_jws := fun v => match v with VStr s => Ok (dget tokens s) | _ => Err ETypeError end;
  e_jwe := fun _ _ _ => Ok None;
  e_kj_true := true;
  e_kj_in := fun v => Ok (py_eq v (VStr (u "https://op")));
  e_kj_keys := fun _ _ _ _ => Ok [7];
  e_kj_update := fun _ => Ok tt;
  e_sig := fun t _ keys =>
    match keys with
    | [] => Err ENoSuitableSigningKeys
    | _ => if existsb (ueqb t) [u "id.forged"; u "lo.forged"] then Err ECrypto else Ok tt
    end;
  e_lhash := fun v h => match v with VStr s => Ok (VStr (h ++ u ":" ++ firstn 2 s)) | _ => Err EAttributeError end;
  e_repr := fun _ => Err EAttributeError;
  e_netloc_ok := fun _ => true |}.

(** the same at another time *)
Definition at_time (E : env) (t : Z) : env := {|
  e_now := t; e_jws := e_jws E; e_jwe := e_jwe E; e_kj_true := e_kj_true E; e_kj_in := e_kj_in E;
  e_kj_keys := e_kj_keys E; e_kj_update := e_kj_update E; e_sig := e_sig E; e_lhash := e_lhash E;
  e_repr := e_repr E; e_netloc_ok := e_netloc_ok E |}.

Definition with_jar (k : dict value) : kwargs := {| kw := k; kw_jar := true |}.

Lemma sample_not_encrypted : forall t, not_encrypted sample t.
Proof. intros t i a. reflexivity. Qed.
Lemma sample_needs_keys : sig_needs_keys sample.
Proof. intros t a H. discriminate. Qed.
Lemma sample_text_hash : text_hash sample.
Proof.
  intros v h. split.
  - destruct v; discriminate.
  - intros x H. destruct v; try discriminate. injection H as <-. right. eauto.
Qed.

Lemma table_by_compute : forall C d, verify_base C d = Ok true -> table_ok C d.
Proof. intros C d H. apply verify_base_true in H. tauto. Qed.

Definition token_response (t : string) : dict value :=
  [(u "access_token", VStr (u "at1")); (u "token_type", VStr (u "Bearer")); (u "id_token", VStr (u t))].

Definition hybrid_response (a c : string) : dict value :=
  [(u "access_token", VStr (u a)); (u "token_type", VStr (u "Bearer")); (u "code", VStr (u c));
   (u "id_token", VStr (u "id.signed"))].

(** a provider configuration with the given issuer *)
Definition provider (iss : string) : dict value :=
  [(u "issuer", VStr (u iss)); (u "authorization_endpoint", VStr (u "https://op/a"));
   (u "token_endpoint", VStr (u "https://op/t")); (u "jwks_uri", VStr (u "https://op/jwks"));
   (u "response_types_supported", VList [VStr (u "code")]);
   (u "subject_types_supported", VList [VStr (u "public")]);
   (u "id_token_signing_alg_values_supported", VList [VStr (u "RS256")]);
   (u "scopes_supported", VList [VStr (u "openid"); VStr (u "email")])].
