(** The results on the verify functions at the level of Message.verify() of an instance. *)
From Coq Require Import List NArith ZArith QArith Bool String Lia ZifyBool ZifyN.
From Verif Require Import Base.Ustr Base.UstrLemmas Model.Cls Model.Value Model.Pspec Model.Tables Model.Json
  Model.Message Model.Env Model.Verify Spec.MessageSpec Spec.VerifySpec
  Proofs.ValueLemmas Proofs.MessageLemmas Proofs.EncodeLemmas Proofs.VerifyLemmas Proofs.DateLemmas Proofs.TokenLemmas
  Proofs.IdTokenLemmas Proofs.ResponseLemmas Proofs.OtherVerify.
Import ListNotations.
Open Scope list_scope.
Open Scope N_scope.

Lemma response_fail : forall E K hdr c d e, subclass c C_oauth2_ResponseMessage = true ->
  response_verify (cdef c) d = Err e -> verify E K hdr c d = (d, Err e).
Proof.
  intros E K hdr c d e Hc H.
  assert (G : match vkind_of c with
    | KResponse | KAuthzResponse | KTokenResponse | KOidcAuthzResponse | KSchema | KRegistrationResponse
    | KIdToken | KProvider => True
    | KWithIdToken => mwit_super c = response_verify
    | _ => False
    end).
  { destruct c; try exact I; try reflexivity; vm_compute in Hc; discriminate. }
  unfold verify. destruct (vkind_of c); try contradiction.
  - unfold pure. rewrite H. reflexivity.
  - unfold pure, authz_response_verify. rewrite H. reflexivity.
  - unfold oidc_token_response_verify. rewrite H. reflexivity.
  - unfold oidc_authz_response_verify, authz_response_verify. rewrite H. reflexivity.
  - unfold pure, schema_verify. rewrite H. reflexivity.
  - unfold pure, registration_response_verify. rewrite H. reflexivity.
  - unfold pure, idtoken_verify, schema_verify. rewrite H. reflexivity.
  - unfold mwit_verify. rewrite G, H. reflexivity.
  - unfold pure, provider_verify. rewrite H. reflexivity.
Qed.

Lemma c24_sub : forall E K hdr c d s ch, subclass c C_oauth2_ResponseMessage = true ->
  table_ok (cdef c) d -> dget d (u "error_description") = Some (VStr s) -> In ch s -> ~ desc_char ch ->
  verify E K hdr c d = (d, Err EValueError).
Proof.
  intros E K hdr c d s ch Hc Ht Hs Hi Hn. apply response_fail; [assumption|].
  apply (c24 _ _ s Ht Hs). eauto.
Qed.
Lemma c24_class : forall E K hdr d s, table_ok (cdef C_oauth2_ResponseMessage) d ->
  dget d (u "error_description") = Some (VStr s) ->
  (verify E K hdr C_oauth2_ResponseMessage d = (d, Err EValueError) <-> exists c, In c s /\ ~ desc_char c) /\
  (verify E K hdr C_oauth2_ResponseMessage d = (d, Ok true) <-> forall c, In c s -> desc_char c).
Proof.
  intros E K hdr d s Ht Hs. destruct (c24 _ _ s Ht Hs) as [H1 H2].
  change (verify E K hdr C_oauth2_ResponseMessage d) with (d, response_verify (cdef C_oauth2_ResponseMessage) d).
  rewrite <- H1, <- H2. split; split; congruence.
Qed.

(** c32: the errors *)
Lemma c32_err : forall E K hdr d v tok b alg, response_ok (cdef C_oidc_AccessTokenResponse) d ->
  dget d (u "id_token") = Some v -> e_jws E v = Ok (Some tok) ->
  dget (t_hdr tok) (u "alg") = Some alg -> alg <> VStr (u "none") ->
  (forall a, kget K (u "allowed_sign_alg") = Some a -> py_eq alg a = true) ->
  t_body tok = Ok (VDict b) -> kw_jar K = true ->
  (dget b (u "iss") = None -> snd (verify E K hdr C_oidc_AccessTokenResponse d) = Err EMissingRequiredAttribute) /\
  (forall iss, dget b (u "iss") = Some iss -> e_kj_in E iss = Ok false ->
     snd (verify E K hdr C_oidc_AccessTokenResponse d) = Err EValueError).
Proof.
  intros E K hdr d v tok b alg Hr Hv Hj Ha Hn Hal Hb Hk.
  change (verify E K hdr C_oidc_AccessTokenResponse d) with
    (oidc_token_response_verify E K (cdef C_oidc_AccessTokenResponse) d).
  assert (H1 : response_verify (cdef C_oidc_AccessTokenResponse) d = Ok true) by (apply response_verify_ok; auto).
  assert (Hv1 : dget (clear_verified d) (u "id_token") = Some v) by (rewrite dget_clear; exact Hv).
  assert (Hh : dhas (clear_verified d) (u "id_token") = true) by (apply dhas_true; eauto).
  assert (Hs : signed_tok tok) by (unfold signed_tok; congruence).
  assert (Hac : exists r, alg_check K tok = Ok r).
  { unfold alg_check. rewrite Ha. destruct (py_eq alg (VStr (u "none"))) eqn:En; [apply py_eq_str_r in En; contradiction|].
    destruct (kget K (u "allowed_sign_alg")) as [a|]; [|eauto]. pose proof (Hal a eq_refl) as G.
    apply py_ne_false in G. rewrite G. eauto. }
  destruct (c32_errors E 0 K false (u "id_token") (clear_verified d) v tok b Hv1 Hj Hs Hb Hk Hac) as [G1 G2].
  unfold oidc_token_response_verify. rewrite H1. cbn [checked]. unfold with_id_token. rewrite Hh. unfold verify_id_token.
  split.
  - intro Hi. rewrite (G1 Hi). reflexivity.
  - intros iss Hi Hin. rewrite (G2 iss Hi Hin). reflexivity.
Qed.

(** c36 *)
Lemma c36_schema : forall E K hdr c d, subclass c C_oidc_OpenIDSchema = true -> subclass c C_oidc_IdToken = false ->
  has_null d -> snd (verify E K hdr c d) <> Ok true.
Proof.
  intros E K hdr c d H1 H2 Hn.
  assert (Hk : vkind_of c = KSchema) by (destruct c; try reflexivity; vm_compute in H1, H2; discriminate).
  unfold verify. rewrite Hk. cbn [pure snd]. intro H. apply schema_verify_ok in H. tauto.
Qed.
Lemma c36_result : forall E K hdr d, subclass C_oidc_OpenIDSchema C_oidc_OpenIDSchema = true -> forall b,
  snd (verify E K hdr C_oidc_OpenIDSchema d) = Ok b <-> schema_ok (cdef C_oidc_OpenIDSchema) d /\ (b = true <-> ~ has_null d).
Proof. intros E K hdr d _ b. exact (schema_verify_ok _ d b). Qed.

(** c49 *)
Lemma c49_exact : forall E K hdr d v, response_ok (cdef C_oidc_OpenIDSchema) d -> ~ has_null d ->
  dget d (u "birthdate") = Some v ->
  (snd (verify E K hdr C_oidc_OpenIDSchema d) = Ok true <-> exists s, v = VStr s /\ birthdate_text s).
Proof.
  intros E K hdr d v Hr Hn Hv. change (snd (verify E K hdr C_oidc_OpenIDSchema d)) with (schema_verify (cdef C_oidc_OpenIDSchema) d).
  rewrite schema_verify_ok. unfold schema_ok. split.
  - intros [[_ H] _]. exact (H v Hv).
  - intro H. split; [|tauto]. split; [assumption|]. intros w Hw. rewrite Hv in Hw. injection Hw as <-. exact H.
Qed.
Lemma c49_strict : forall E K hdr d s, response_ok (cdef C_oidc_OpenIDSchema) d -> ~ has_null d ->
  dget d (u "birthdate") = Some (VStr s) -> birthdate_strict s ->
  snd (verify E K hdr C_oidc_OpenIDSchema d) = Ok true.
Proof.
  intros E K hdr d s Hr Hn Hv Hb. apply (c49_exact E K hdr d _ Hr Hn Hv). exists s. split; [reflexivity|].
  apply birthdate_strict_text. assumption.
Qed.

(** c54: the text that is verified *)
Lemma c54_text : forall E i c t t' jar args d hdr tok,
  from_jwt E i (cdef c) t jar true args = Ok (d, hdr) ->
  (t' = t /\ not_encrypted E t) \/ (forall a, e_jwe E i t a = Ok (Some t')) ->
  e_jws E (VStr t') = Ok (Some tok) -> signed_tok tok -> verified_with E args t' tok.
Proof.
  intros E i c t t' jar args d hdr tok H Ht Hj Hs. eapply c54; [exact H| |exact Hj|exact Hs].
  destruct Ht as [[-> Hn]|Ht]; [apply not_encrypted_decrypt; assumption|].
  unfold jwt_decrypt. rewrite Ht. reflexivity.
Qed.

Lemma c28_jar : forall E K hdr d d' r a,
  verify E K hdr C_oauth2_JWTSecuredAuthorizationRequest d = (d', Ok true) -> dget d (u "request") = Some r ->
  In a [u "response_type"; u "client_id"] ->
  exists t req, py_str_e E r = Ok t /\ decoded E 0 C_oauth2_AuthorizationRequest t req /\ dget d' a = dget req a.
Proof.
  intros E K hdr d d' r a H Hr Ha. destruct (c27_request _ _ _ _ _ _ H Hr) as [t [req [H1 [H2 [_ [_ H3]]]]]].
  exists t, req. split; [assumption|]. split; [assumption|]. apply H3. intros ->. cbn in Ha.
  destruct Ha as [Ha|[Ha|[]]]; discriminate.
Qed.
Lemma c28_par : forall E K hdr d d' r a,
  verify E K hdr C_oauth2_PushedAuthorizationRequest d = (d', Ok true) -> dget d (u "request") = Some r ->
  In a [u "response_type"; u "client_id"] ->
  exists t req, py_str_e E r = Ok t /\ decoded E 0 C_oauth2_AuthorizationRequest t req /\
    dget d' a = match dget req a with Some v => Some v | None => dget d a end.
Proof.
  intros E K hdr d d' r a H Hr Ha. destruct (c27_par _ _ _ _ _ _ H Hr) as [t [req [H1 [H2 [_ [_ H3]]]]]].
  exists t, req. split; [assumption|]. split; [assumption|]. apply H3. intros ->. cbn in Ha.
  destruct Ha as [Ha|[Ha|[]]]; discriminate.
Qed.

(** c26 *)
Lemma c26_sub : forall E K hdr c d d', subclass c C_oauth2_AuthorizationResponse = true ->
  verify E K hdr c d = (d', Ok true) ->
  response_ok (cdef c) d /\ agree (dget d (u "client_id")) (kget K (u "client_id")) /\
  agree (dget d (u "iss")) (kget K (u "iss")).
Proof.
  intros E K hdr c d d' Hc H.
  assert (G : vkind_of c = KAuthzResponse \/ vkind_of c = KOidcAuthzResponse).
  { destruct c; try (left; reflexivity); try (right; reflexivity); vm_compute in Hc; discriminate. }
  unfold verify in H. destruct G as [G|G]; rewrite G in H.
  - unfold pure in H. injection H as _ H. apply authz_response_ok in H. tauto.
  - unfold oidc_authz_response_verify in H.
    destruct (authz_response_verify K (cdef c) d) as [b|e] eqn:Ea; [|discriminate].
    apply authz_response_ok in Ea. tauto.
Qed.
Lemma c26_exact : forall E K hdr d,
  verify E K hdr C_oauth2_AuthorizationResponse d = (d, Ok true) <->
  response_ok (cdef C_oauth2_AuthorizationResponse) d /\ agree (dget d (u "client_id")) (kget K (u "client_id")) /\
  agree (dget d (u "iss")) (kget K (u "iss")).
Proof.
  intros E K hdr d.
  change (verify E K hdr C_oauth2_AuthorizationResponse d) with
    (d, authz_response_verify K (cdef C_oauth2_AuthorizationResponse) d).
  pose proof (authz_response_ok K (cdef C_oauth2_AuthorizationResponse) d true) as G.
  split; intro H.
  - injection H as H. tauto.
  - f_equal. tauto.
Qed.

(** c25 *)
Lemma c25_partial : forall E K hdr d s, table_ok (cdef C_oauth2_ResponseMessage) d ->
  dget d (u "error_description") = Some (VStr s) -> (forall c, In c s -> rfc6749_char c) ->
  (verify E K hdr C_oauth2_ResponseMessage d = (d, Ok true) <->
   forall c, In c s -> (65 <= c <= 90) \/ (97 <= c <= 122) \/ c = 32 \/ c = 33).
Proof. intros E K hdr d s Ht Hs _. exact (proj2 (c24_class E K hdr d s Ht Hs)). Qed.

(** verify() of the classes derived from JsonWebToken *)
Lemma jwt_kind : forall c, subclass c C_oidc_JsonWebToken = true -> vkind_of c = KJwt.
Proof. intros c H. destruct c; try reflexivity; vm_compute in H; discriminate. Qed.
Lemma c39 : forall E K hdr c d, subclass c C_oidc_JsonWebToken = true ->
  (verify E K hdr c d = (d, Ok true) <-> table_ok (cdef c) d /\ jwt_rules (e_now E) K d).
Proof.
  intros E K hdr c d Hc. unfold verify. rewrite (jwt_kind _ Hc). unfold pure.
  pose proof (jwt_verify_ok E K (cdef c) d true) as G. split; intro H.
  - injection H as H. tauto.
  - f_equal. tauto.
Qed.
Lemma c39_false : forall E K hdr c d, subclass c C_oidc_JsonWebToken = true ->
  exists r, verify E K hdr c d = (d, r) /\ r <> Ok false.
Proof.
  intros E K hdr c d Hc. unfold verify. rewrite (jwt_kind _ Hc). unfold pure. eexists. split; [reflexivity|].
  intro H. apply jwt_verify_ok in H. destruct H as [_ H]. discriminate.
Qed.
Lemma c40_class : forall E K K' hdr c d s s', subclass c C_oidc_JsonWebToken = true -> same_but_skew K K' ->
  arg_int K (u "skew") 0 s -> arg_int K' (u "skew") 0 s' -> (s <= s')%Z -> dget d (u "nbf") = None ->
  verify E K hdr c d = (d, Ok true) -> verify E K' hdr c d = (d, Ok true).
Proof.
  intros E K K' hdr c d s s' Hc Hk Hs Hs' Hl Hn. unfold verify. rewrite (jwt_kind _ Hc). unfold pure.
  intro H. injection H as H. f_equal. eapply c40_partial; eauto.
Qed.

(** verify() of ID Tokens *)
Lemma c34 : forall E K hdr d,
  verify E K hdr C_oidc_IdToken d = (d, Ok true) <->
  schema_ok (cdef C_oidc_IdToken) d /\ id_token_rules (e_now E) K d.
Proof.
  intros E K hdr d. change (verify E K hdr C_oidc_IdToken d) with (d, idtoken_verify E K (cdef C_oidc_IdToken) d).
  pose proof (idtoken_verify_ok E K (cdef C_oidc_IdToken) d true) as G. split; intro H.
  - injection H as H. tauto.
  - f_equal. tauto.
Qed.
Lemma req_present : forall C d a s, table_ok C d -> dget (cd_param C) a = Some s -> a <> u "*" -> p_req s = true ->
  p_typ s <> TBool -> exists v, dget d a = Some v /\ ~ empty_value v.
Proof.
  intros C d a s [Hm _] Hs Ha Hr Ht. destruct (dget d a) as [v|] eqn:Ed.
  - exists v. split; [reflexivity|]. intro Hv. apply (Hm a). exists s. split; [apply dget_In; assumption|].
    split; [assumption|]. split; [assumption|]. intros [w [Hw Hg]]. rewrite Ed in Hw. injection Hw as <-.
    destruct Hg as [Hg|Hg]; contradiction.
  - exfalso. apply (Hm a). exists s. split; [apply dget_In; assumption|].
    split; [assumption|]. split; [assumption|]. intros [w [Hw Hg]]. rewrite Ed in Hw. discriminate.
Qed.
Lemma c34_required : forall E K hdr d k, verify E K hdr C_oidc_IdToken d = (d, Ok true) ->
  In k [u "iss"; u "sub"; u "aud"; u "exp"; u "iat"] -> exists v, dget d k = Some v /\ ~ empty_value v.
Proof.
  intros E K hdr d k H Hk. apply c34 in H. destruct H as [[[Ht _] _] _].
  cbn [In] in Hk. destruct Hk as [<-|[<-|[<-|[<-|[<-|[]]]]]].
  all: eapply (req_present (cdef C_oidc_IdToken) d); [exact Ht|vm_compute; reflexivity|discriminate|reflexivity|discriminate].
Qed.

(** c51 *)
Lemma c51 : forall E K hdr d,
  verify E K hdr C_session_LogoutToken d = (d, Ok true) <->
  table_ok (cdef C_session_LogoutToken) d /\ logout_rules (e_now E) K hdr d.
Proof.
  intros E K hdr d. change (verify E K hdr C_session_LogoutToken d) with
    (d, logout_token_verify E K (cdef C_session_LogoutToken) hdr d).
  pose proof (logout_verify_ok E K (cdef C_session_LogoutToken) hdr d true) as G. split; intro H.
  - injection H as H. tauto.
  - f_equal. tauto.
Qed.
Lemma c51_required : forall E K hdr d k, verify E K hdr C_session_LogoutToken d = (d, Ok true) ->
  In k [u "iss"; u "aud"; u "iat"; u "jti"; u "events"] -> exists v, dget d k = Some v /\ ~ empty_value v.
Proof.
  intros E K hdr d k H Hk. apply c51 in H. destruct H as [Ht _].
  cbn [In] in Hk. destruct Hk as [<-|[<-|[<-|[<-|[<-|[]]]]]].
  all: eapply (req_present (cdef C_session_LogoutToken) d); [exact Ht|vm_compute; reflexivity|discriminate|reflexivity|discriminate].
Qed.

(** c35 at the level of instances *)
Lemma c35_time_class : forall E E' K hdr d s, arg_int K (u "skew") 0 s -> (e_now E <= e_now E')%Z ->
  verify E' K hdr C_oidc_IdToken d = (d, Ok true) -> verify E K hdr C_oidc_IdToken d = (d, Ok true).
Proof.
  intros E E' K hdr d s Hi Hle H.
  change (verify E' K hdr C_oidc_IdToken d) with (d, idtoken_verify E' K (cdef C_oidc_IdToken) d) in H.
  change (verify E K hdr C_oidc_IdToken d) with (d, idtoken_verify E K (cdef C_oidc_IdToken) d).
  injection H as H. f_equal. eapply c35_time; eauto.
Qed.
Lemma c35_reject_class : forall E E' K hdr d e s, arg_int K (u "skew") 0 s -> (e_now E <= e_now E')%Z ->
  verify E K hdr C_oidc_IdToken d = (d, Err e) -> late e ->
  exists e', verify E' K hdr C_oidc_IdToken d = (d, Err e') /\ late e'.
Proof.
  intros E E' K hdr d e s Hi Hle H He.
  change (verify E K hdr C_oidc_IdToken d) with (d, idtoken_verify E K (cdef C_oidc_IdToken) d) in H.
  injection H as H. destruct (c35_reject E E' K _ d e s Hi Hle H He) as [e' [H1 H2]].
  exists e'. split; [|assumption].
  change (verify E' K hdr C_oidc_IdToken d) with (d, idtoken_verify E' K (cdef C_oidc_IdToken) d).
  f_equal. assumption.
Qed.
Lemma c35_skew_class : forall E K K' hdr d s s', same_but_skew K K' ->
  arg_int K (u "skew") 0 s -> arg_int K' (u "skew") 0 s' -> (s <= s')%Z ->
  verify E K hdr C_oidc_IdToken d = (d, Ok true) -> verify E K' hdr C_oidc_IdToken d = (d, Ok true).
Proof.
  intros E K K' hdr d s s' Hk Hs Hs' Hl H.
  change (verify E K hdr C_oidc_IdToken d) with (d, idtoken_verify E K (cdef C_oidc_IdToken) d) in H.
  change (verify E K' hdr C_oidc_IdToken d) with (d, idtoken_verify E K' (cdef C_oidc_IdToken) d).
  injection H as H. f_equal. exact (c35_skew E K K' _ d s s' Hk Hs Hs' Hl H).
Qed.
Lemma c45_class : forall E K hdr d,
  verify E K hdr C_oidc_RegistrationResponse d = (d, Ok true) <->
  response_ok (cdef C_oidc_RegistrationResponse) d /\
  (In (u "registration_client_uri") (map fst d) <-> In (u "registration_access_token") (map fst d)).
Proof.
  intros E K hdr d. change (verify E K hdr C_oidc_RegistrationResponse d) with
    (d, registration_response_verify (cdef C_oidc_RegistrationResponse) d).
  pose proof (c45 (cdef C_oidc_RegistrationResponse) d true) as G. split; intro H.
  - injection H as H. tauto.
  - f_equal. tauto.
Qed.
