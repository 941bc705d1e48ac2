(** Honest logout tokens, OpenID Connect Back-Channel Logout 1.0. *)
From Coq Require Import List NArith ZArith QArith Bool String.
From Verif Require Import Base.Ustr Model.Cls Model.Value Model.Pspec Model.Tables Model.Env
  Spec.MessageSpec Spec.VerifySpec Spec.JoseSpec.
Import ListNotations.
Open Scope list_scope.
Open Scope N_scope.

(** the claims of a logout token, section 2.4 *)
Record logout_claims_ok (d : dict value) : Prop := {
  lo_names : forall k, In k [u "iss"; u "aud"; u "iat"; u "jti"] -> exists v, dget d k = Some v /\ ~ empty_value v;
  lo_nonce : dget d (u "nonce") = None;
  lo_who : dget d (u "sub") <> None \/ dget d (u "sid") <> None;
  lo_events : dget d (u "events") = Some (VDict [(u "http://schemas.openid.net/event/backchannel-logout", VDict [])]) }.

(** they are for the consumer with the arguments [K], whose clock shows [now] *)
Record logout_for (now : Z) (K : kwargs) (d : dict value) : Prop := {
  lf_iss : agree (kget K (u "iss")) (dget d (u "iss"));
  lf_aud : forall aud a, dget d (u "aud") = Some aud -> kget K (u "aud") = Some a -> contains aud a;
  lf_iat : forall t, dget d (u "iat") = Some t -> exists z s, t = VInt z /\ arg_int K (u "skew") 0 s /\ (z <= now + s)%Z }.

(** the consumer has the keys for the token when it reads a JWT for the [i]-th time, and expects its
    algorithm if it expects one *)
Record can_check (E : env) (K : kwargs) (i : nat) (alg tok : ustr) : Prop := {
  cc_jar : kw_jar K = true;
  cc_alg : forall a, kget K (u "allowed_sign_alg") = Some a -> a = VStr alg;
  cc_trust : forall args, passed_on K args -> trusts E i args tok }.

(** ** ID Tokens made by other implementations *)
(** the claims, OpenID Connect Core 1.0, section 2 *)
Record id_claims_ok (d : dict value) : Prop := {
  ic_names : forall k, In k [u "iss"; u "sub"; u "aud"; u "exp"; u "iat"] -> exists v, dget d k = Some v /\ ~ empty_value v;
  ic_desc : forall v, dget d (u "error_description") = Some v -> desc_ok v;
  ic_birth : forall v, dget d (u "birthdate") = Some v -> exists s, v = VStr s /\ birthdate_text s }.

(** [now] is not too late for them *)
Definition timely (now : Z) (K : kwargs) (d : dict value) : Prop :=
  exists s n e i, arg_int K (u "skew") 0 s /\ arg_int K (u "nonce_storage_time") 14400 n /\
    dget d (u "exp") = Some (VInt e) /\ dget d (u "iat") = Some (VInt i) /\ (now - s <= e)%Z /\ (now - s <= i + n)%Z.

(** the access token and the code in [msg] are the ones whose hashes are in the claims *)
Definition bound_by (E : env) (h : ustr) (msg d : dict value) : Prop :=
  forall k hk x, In (k, hk) [(u "access_token", u "at_hash"); (u "code", u "c_hash")] -> dget msg k = Some x ->
    exists t, e_lhash E x h = Ok (VStr t) /\ dget d hk = Some (VStr t).
