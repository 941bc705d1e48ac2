(** C141 - C143: what a text, a JWT and an ID Token determine. *)
From Coq Require Import List NArith ZArith Bool String.
From Verif Require Import Base.Ustr Model.Cls Model.Value Model.Pspec Model.Tables Model.Json Model.Message Model.Env Model.Verify Model.Jose
  Spec.MessageSpec Spec.RoundTripSpec Spec.VerifySpec Spec.JoseSpec Spec.ClockSpec Spec.FlowSpec Proofs.FlowLemmas Proofs.BindingLemmas Proofs.JoseSamples Proofs.FlowSamples.
Import ListNotations.
Open Scope list_scope.
Open Scope N_scope.

(** C141: messages that differ in a parameter have different JSON texts, ... *)
Theorem C141_json : forall C d1 d2 t1 t2 k, content canon (cd_param C) d1 -> content canon (cd_param C) d2 ->
  to_json C d1 = Ok t1 -> to_json C d2 = Ok t2 -> dget d1 k <> dget d2 k -> t1 <> t2.
Proof. exact json_differ. Qed.
Print Assumptions C141_json.

(** ... query strings, ... *)
Theorem C141_query : forall C lax d1 d2 t1 t2 k, content urlable (cd_param C) d1 -> content urlable (cd_param C) d2 ->
  lax = true \/ (has_required C d1 /\ has_required C d2) ->
  to_urlencoded C lax d1 = Ok t1 -> to_urlencoded C lax d2 = Ok t2 -> dget d1 k <> dget d2 k -> t1 <> t2.
Proof. exact query_differ. Qed.
Print Assumptions C141_query.

(** ... and JWTs, whatever the algorithms and keys, if there is a party that reads both. *)
Theorem C141_jwt : forall J E C d1 d2 alg1 alg2 keys1 keys2 t1 t2 k, content canon (cd_param C) d1 -> content canon (cd_param C) d2 ->
  reads_signed J E alg1 keys1 -> reads_signed J E alg2 keys2 ->
  message_to_jwt J C d1 keys1 alg1 = Ok t1 -> message_to_jwt J C d2 keys2 alg2 = Ok t2 ->
  alg1 <> alg2 \/ dget d1 k <> dget d2 k -> t1 <> t2.
Proof. exact jwt_differ. Qed.
Print Assumptions C141_jwt.

Example C141_case : let C := cdef C_oidc_AuthorizationRequest in let d F := auth_request F [u "code"] in
  content canon (cd_param C) (d fl) /\ content canon (cd_param C) (d fl2) /\
  content urlable (cd_param C) (d fl) /\ content urlable (cd_param C) (d fl2) /\
  has_required C (d fl) /\ has_required C (d fl2) /\
  dget (d fl) (u "state") <> dget (d fl2) (u "state") /\
  (exists t, to_json C (d fl) = Ok t) /\ (exists t, to_json C (d fl2) = Ok t) /\
  to_urlencoded C false (d fl2) =
    Ok (u "response_type=code&client_id=rp+%26+co&redirect_uri=https%3A%2F%2Frp%2Fcb%3Fx%3D1%26y%3D2&scope=openid+email+phone&state=a%26nonce%3Db%22%2C%22c%22%3A%22&nonce=n0") /\
  reads_signed toy (toy_env 1000) (u "RS256") [7] /\
  (exists t, message_to_jwt toy C (d fl) [7] (u "RS256") = Ok t) /\ (exists t, message_to_jwt toy C (d fl2) [7] (u "RS256") = Ok t).
Proof.
  cbv zeta. split; [apply request_canon; [exact fl_ok|left; reflexivity]|]. split; [apply request_canon; [exact fl2_ok|left; reflexivity]|].
  split; [apply request_url; [exact fl_ok|left; reflexivity]|]. split; [apply request_url; [exact fl2_ok|left; reflexivity]|].
  split; [apply fl_required|]. split; [apply fl_required|]. split; [discriminate|].
  split; [eexists; vm_compute; reflexivity|]. split; [eexists; vm_compute; reflexivity|]. split; [vm_compute; reflexivity|].
  split; [apply toy_reads|]. split; eexists; vm_compute; reflexivity.
Qed.

(** C142: an ID Token is accepted for one issuer, ... *)
Theorem C142_issuer : forall E t1 t2 K1 K2 h1 h2 c1 c2 d1 d2 r1 r2 t,
  has_id_token_check c1 -> has_id_token_check c2 ->
  verify (clock E t1) K1 h1 c1 d1 = (r1, Ok true) -> verify (clock E t2) K2 h2 c2 d2 = (r2, Ok true) ->
  dget d1 (u "id_token") = Some (VStr t) -> dget d2 (u "id_token") = Some (VStr t) -> not_encrypted E t ->
  forall i1 i2, kget K1 (u "iss") = Some (VStr i1) -> kget K2 (u "iss") = Some (VStr i2) -> i1 = i2.
Proof. exact one_issuer. Qed.
Print Assumptions C142_issuer.

(** ... one client, ... *)
Theorem C142_client : forall E t1 t2 K1 K2 h1 h2 c1 c2 d1 d2 r1 r2 t,
  has_id_token_check c1 -> has_id_token_check c2 ->
  verify (clock E t1) K1 h1 c1 d1 = (r1, Ok true) -> verify (clock E t2) K2 h2 c2 d2 = (r2, Ok true) ->
  dget d1 (u "id_token") = Some (VStr t) -> dget d2 (u "id_token") = Some (VStr t) -> not_encrypted E t ->
  forall a b, kget K1 (u "client_id") = Some (VStr a) -> kget K2 (u "client_id") = Some (VStr b) -> a <> [] -> b <> [] -> a = b.
Proof. exact one_client. Qed.
Print Assumptions C142_client.

(** ... gives the same claims to everybody ... *)
Theorem C142_claims : forall E t1 t2 K1 K2 h1 h2 c1 c2 d1 d2 r1 r2 t,
  has_id_token_check c1 -> has_id_token_check c2 ->
  verify (clock E t1) K1 h1 c1 d1 = (r1, Ok true) -> verify (clock E t2) K2 h2 c2 d2 = (r2, Ok true) ->
  dget d1 (u "id_token") = Some (VStr t) -> dget d2 (u "id_token") = Some (VStr t) -> not_encrypted E t ->
  exists idt, dget r1 (u "__verified_id_token") = Some (VMsg C_oidc_IdToken idt) /\ dget r2 (u "__verified_id_token") = Some (VMsg C_oidc_IdToken idt).
Proof. exact one_claims. Qed.
Print Assumptions C142_claims.

(** ... and is accepted for one nonce if it has one.  Missing: tokens without. *)
Theorem C142_nonce_partial : forall E t1 t2 K1 K2 h1 h2 c1 c2 d1 d2 r1 r2 t,
  has_id_token_check c1 -> has_id_token_check c2 ->
  verify (clock E t1) K1 h1 c1 d1 = (r1, Ok true) -> verify (clock E t2) K2 h2 c2 d2 = (r2, Ok true) ->
  dget d1 (u "id_token") = Some (VStr t) -> dget d2 (u "id_token") = Some (VStr t) -> not_encrypted E t ->
  forall n1 n2, kget K1 (u "nonce") = Some (VStr n1) -> kget K2 (u "nonce") = Some (VStr n2) ->
  forall idt v, dget r1 (u "__verified_id_token") = Some (VMsg C_oidc_IdToken idt) -> dget idt (u "nonce") = Some v -> n1 = n2.
Proof. exact one_nonce. Qed.
Print Assumptions C142_nonce_partial.

(** Full statement: for all nonces n1, n2 as above, n1 = n2.  It is false: an ID Token without nonce is accepted by clients
    that expect different ones, although OpenID Connect Core 3.1.3.7 (11) demands it to be there. *)
Theorem C142_nonce_refuted : exists E K1 K2 d r idt t n1 n2,
  verify E K1 None C_oidc_AccessTokenResponse d = (r, Ok true) /\ verify E K2 None C_oidc_AccessTokenResponse d = (r, Ok true) /\
  dget d (u "id_token") = Some (VStr t) /\ not_encrypted E t /\
  kget K1 (u "nonce") = Some (VStr n1) /\ kget K2 (u "nonce") = Some (VStr n2) /\ n1 <> n2 /\
  dget r (u "__verified_id_token") = Some (VMsg C_oidc_IdToken idt) /\ dget idt (u "nonce") = None.
Proof. exact no_nonce_witness. Qed.
Print Assumptions C142_nonce_refuted.

Example C142_case : has_id_token_check C_oidc_AccessTokenResponse /\ has_id_token_check C_oidc_AuthorizationResponse /\
  let d := token_response fl fl_token in let K := fl_expects "n0" in
  verify (clock (toy_env 0) 1500) K None C_oidc_AccessTokenResponse d = (fl_result, Ok true) /\
  verify (clock (toy_env 0) 1599) K None C_oidc_AccessTokenResponse d = (fl_result, Ok true) /\
  dget d (u "id_token") = Some (VStr fl_token) /\ not_encrypted (toy_env 0) fl_token /\
  kget K (u "iss") = Some (VStr (u "https://op")) /\ kget K (u "client_id") = Some (VStr (u "rp & co")) /\ kget K (u "nonce") = Some (VStr (u "n0")) /\
  (exists idt, dget fl_result (u "__verified_id_token") = Some (VMsg C_oidc_IdToken idt) /\ dget idt (u "nonce") = Some (VStr (u "n0"))) /\
  (* another session of the same client *)
  snd (verify (toy_env 1500) (fl_expects "n1") None C_oidc_AccessTokenResponse d) = Err EValueError.
Proof.
  cbv zeta. split; [left; reflexivity|]. split; [right; left; reflexivity|]. split; [vm_compute; reflexivity|]. split; [vm_compute; reflexivity|].
  split; [reflexivity|]. split; [intros i a; reflexivity|]. split; [reflexivity|]. split; [reflexivity|]. split; [reflexivity|].
  split; [eexists; split; vm_compute; reflexivity|]. vm_compute; reflexivity.
Qed.

(** C143: the codes and access tokens in authorization responses with the same signed ID Token have the same hash. *)
Theorem C143_code_and_token : forall E t1 t2 K1 K2 h1 h2 c1 c2 d1 d2 r1 r2 t,
  has_id_token_check c1 -> has_id_token_check c2 ->
  verify (clock E t1) K1 h1 c1 d1 = (r1, Ok true) -> verify (clock E t2) K2 h2 c2 d2 = (r2, Ok true) ->
  dget d1 (u "id_token") = Some (VStr t) -> dget d2 (u "id_token") = Some (VStr t) -> not_encrypted E t ->
  subclass c1 C_oidc_AuthorizationResponse = true -> subclass c2 C_oidc_AuthorizationResponse = true -> text_hash E ->
  forall tok, e_jws E (VStr t) = Ok (Some tok) -> signed_tok tok ->
  exists alg h, dget (t_hdr tok) (u "alg") = Some (VStr alg) /\ hash_of_alg alg h /\
    forall k x1 x2, In k [u "access_token"; u "code"] -> dget d1 k = Some x1 -> dget d2 k = Some x2 ->
      exists y, e_lhash E x1 h = Ok y /\ e_lhash E x2 h = Ok y.
Proof. exact one_code. Qed.
Print Assumptions C143_code_and_token.

Example C143_case : let d := hybrid_response fl fl_hybrid_token in let K := fl_expects "n0" in
  verify (clock (toy_env 0) 1500) K None C_oidc_AuthorizationResponse d = (fl_hybrid_result, Ok true) /\
  (* the toy hash looks at two characters *)
  verify (clock (toy_env 0) 1400) K None C_oidc_AuthorizationResponse (dset d (u "code") (VStr (u "co=2"))) = (fl_hybrid_result2, Ok true) /\
  snd (verify (clock (toy_env 0) 1400) K None C_oidc_AuthorizationResponse (dset d (u "code") (VStr (u "xo=2")))) = Err ECHashError /\
  snd (verify (clock (toy_env 0) 1400) K None C_oidc_AuthorizationResponse (dset d (u "access_token") (VStr (u "xt1")))) = Err EAtHashError /\
  text_hash (toy_env 0) /\ (exists tok, e_jws (toy_env 0) (VStr fl_hybrid_token) = Ok (Some tok) /\ signed_tok tok).
Proof.
  cbv zeta. split; [vm_compute; reflexivity|]. split; [vm_compute; reflexivity|]. split; [vm_compute; reflexivity|]. split; [vm_compute; reflexivity|].
  split; [exact (toy_text_hash _)|]. exact fl_hybrid_signed.
Qed.
