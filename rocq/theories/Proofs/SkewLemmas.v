(** Arguments of verify() that are no numbers. *)
From Coq Require Import List NArith ZArith QArith Bool String Lia ZifyBool ZifyN.
From Verif Require Import Base.Ustr Base.UstrLemmas Model.Cls Model.Value Model.Pspec Model.Tables Model.Json
  Model.Message Model.Env Model.Verify Spec.MessageSpec Spec.VerifySpec Spec.SkewSpec
  Proofs.ValueLemmas Proofs.VerifyLemmas Proofs.TokenLemmas Proofs.ClassVerify.
Import ListNotations.
Open Scope list_scope.
Open Scope N_scope.

Lemma sub_not : forall z v, not_number v -> py_sub (VInt z) v = Err ETypeError.
Proof. intros z v H. destruct v; try contradiction; reflexivity. Qed.
Lemma add_not : forall z v, not_number v -> py_add (VInt z) v = Err ETypeError.
Proof. intros z v H. destruct v; try contradiction; reflexivity. Qed.

Section Args.
  Variables (E : env) (K K' : kwargs) (v : value).
  Hypothesis (N : not_number v).

  Lemma id_token_skew : forall C d, with_arg (u "skew") v K K' -> idtoken_verify E K C d = Ok true -> idtoken_verify E K' C d = Err ETypeError.
  Proof.
    intros C d [Hv Q] H. unfold idtoken_verify in *. rewrite !(Q (u "iss")), !(Q (u "client_id")) by discriminate.
    assert (A : idtoken_aud K' d = idtoken_aud K d) by (unfold idtoken_aud; rewrite (Q (u "client_id")) by discriminate; reflexivity). rewrite A.
    bo H. bo H. bo H. bo H. bo H. rewrite Hx, Hx0, Hx1, Hx2. cbn [bind]. unfold idtoken_times in *. bo Hx3. destruct (dget d (u "exp")) as [e|]; [|discriminate].
    unfold karg at 1. rewrite Hv, sub_not by exact N. reflexivity.
  Qed.
  (** the time that nonces are kept *)
  Lemma id_token_storage : forall C d, with_arg (u "nonce_storage_time") v K K' -> idtoken_verify E K C d = Ok true -> idtoken_verify E K' C d = Err ETypeError.
  Proof.
    intros C d [Hv Q] H. unfold idtoken_verify in *. rewrite !(Q (u "iss")), !(Q (u "client_id")) by discriminate.
    assert (A : idtoken_aud K' d = idtoken_aud K d) by (unfold idtoken_aud; rewrite (Q (u "client_id")) by discriminate; reflexivity). rewrite A.
    bo H. bo H. bo H. bo H. bo H. rewrite Hx, Hx0, Hx1, Hx2. cbn [bind]. unfold idtoken_times in *. unfold karg in *. rewrite (Q (u "skew")) by discriminate. bo Hx3. rewrite Hx4. cbn [bind].
    rewrite Hv. destruct (dget d (u "iat")) as [t|]; [|discriminate]. bo Hx3. bo Hx3. bo Hx3. destruct (sub_num _ _ _ Hx6) as [r Hr].
    destruct (num_of t) as [q|] eqn:Nt.
    - unfold py_add. replace (int_of v) with (@None Z) by (destruct v; try contradiction; reflexivity). replace (num_of v) with (@None QArith_base.Q) by (destruct v; try contradiction; reflexivity).
      rewrite Nt. destruct (int_of t); destruct t; try discriminate; reflexivity.
    - exfalso. apply raise_if_ok in Hx3. destruct Hx3 as [-> _]. change (py_gt x6 x5 = Ok false) in Hx7. apply (py_gt_left _ _ _ Hr) in Hx7. destruct Hx7 as (q & Hq & _).
      assert (T : total t (match kget K (u "nonce_storage_time") with Some w => w | None => VInt nonce_storage_time end) q) by (apply add_total; eauto).
      destruct T as [y z T _|p p' r' _ T _ _]; [rewrite (int_num _ _ T) in Nt; discriminate|]. destruct (float_num _ _ T) as [p0 T0]. congruence.
  Qed.
  Lemma jwt_skew : forall C d k t, with_arg (u "skew") v K K' -> In k [u "exp"; u "iat"; u "nbf"] -> dget d k = Some t -> jwt_verify E K C d = Ok true -> jwt_verify E K' C d = Err ETypeError.
  Proof.
    intros C d k t [Hv Q] Hk Hd H. unfold jwt_verify in *. bo H. rewrite Hx. cbn [bind]. cbv zeta in *. unfold karg. rewrite Hv. rewrite (sub_not _ v N), (add_not _ v N). cbn [bind].
    destruct (dget d (u "exp")) eqn:E1; [reflexivity|]. destruct (dget d (u "iat")) eqn:E2; [reflexivity|]. destruct (dget d (u "nbf")) eqn:E3; [reflexivity|].
    exfalso. destruct Hk as [<-|[<-|[<-|[]]]]; congruence.
  Qed.
  Lemma logout_skew : forall C hdr d t, with_arg (u "skew") v K K' -> dget d (u "iat") = Some t -> logout_token_verify E K C hdr d = Ok true -> logout_token_verify E K' C hdr d = Err ETypeError.
  Proof.
    intros C hdr d t [Hv Q] Hd H. unfold logout_token_verify in *. rewrite !(Q (u "iss")), !(Q (u "aud")) by discriminate.
    bo H. bo H. bo H. bo H. bo H. bo H. bo H. rewrite Hx, Hx0, Hx1. cbn [bind]. rewrite Hx2. cbn [bind]. rewrite Hx3. cbn [bind]. rewrite Hx4. cbn [bind]. rewrite Hx5. cbn [bind].
    rewrite Hd. unfold karg. rewrite Hv, (add_not _ v N). reflexivity.
  Qed.
End Args.

Lemma skew_id_token : forall E K K' hdr d v, not_number v -> with_arg (u "skew") v K K' \/ with_arg (u "nonce_storage_time") v K K' ->
  verify E K hdr C_oidc_IdToken d = (d, Ok true) -> verify E K' hdr C_oidc_IdToken d = (d, Err ETypeError).
Proof.
  intros E K K' hdr d v N W H. change (verify E K hdr C_oidc_IdToken d) with (d, idtoken_verify E K (cdef C_oidc_IdToken) d) in H.
  change (verify E K' hdr C_oidc_IdToken d) with (d, idtoken_verify E K' (cdef C_oidc_IdToken) d). assert (G : idtoken_verify E K (cdef C_oidc_IdToken) d = Ok true) by congruence.
  f_equal. destruct W as [W|W]; [exact (id_token_skew E K K' v N _ d W G)|exact (id_token_storage E K K' v N _ d W G)].
Qed.
Lemma skew_jwt : forall E K K' hdr c d v, subclass c C_oidc_JsonWebToken = true -> not_number v -> with_arg (u "skew") v K K' ->
  verify E K hdr c d = (d, Ok true) -> verify E K' hdr c d = if existsb (dhas d) [u "exp"; u "iat"; u "nbf"] then (d, Err ETypeError) else (d, Ok true).
Proof.
  intros E K K' hdr c d v Hc N W. unfold verify. rewrite (jwt_kind _ Hc). unfold pure. intro H. assert (G : jwt_verify E K (cdef c) d = Ok true) by congruence. clear H.
  destruct (existsb (dhas d) [u "exp"; u "iat"; u "nbf"]) eqn:X.
  - apply existsb_exists in X. destruct X as (k & Hk & X). apply dhas_true in X. destruct X as [t X]. f_equal. exact (jwt_skew E K K' v N _ d k t W Hk X G).
  - f_equal. destruct W as [Hv Q]. cbn [existsb] in X. apply orb_false_elim in X. destruct X as [X1 X]. apply orb_false_elim in X. destruct X as [X2 X]. apply orb_false_elim in X. destruct X as [X3 _].
    apply dhas_false in X1, X2, X3. unfold jwt_verify in *. cbv zeta in *. rewrite X1, X2, X3 in *. rewrite (Q (u "aud")), (Q (u "iss")) by discriminate. exact G.
Qed.
Lemma skew_logout : forall E K K' hdr d v, not_number v -> with_arg (u "skew") v K K' ->
  verify E K hdr C_session_LogoutToken d = (d, Ok true) -> verify E K' hdr C_session_LogoutToken d = (d, Err ETypeError).
Proof.
  intros E K K' hdr d v N W H. destruct (c51_required E K hdr d (u "iat") H) as (t & Ht & _); [cbn; tauto|].
  change (verify E K hdr C_session_LogoutToken d) with (d, logout_token_verify E K (cdef C_session_LogoutToken) hdr d) in H.
  change (verify E K' hdr C_session_LogoutToken d) with (d, logout_token_verify E K' (cdef C_session_LogoutToken) hdr d). assert (G : logout_token_verify E K (cdef C_session_LogoutToken) hdr d = Ok true) by congruence.
  f_equal. exact (logout_skew E K K' v N _ hdr d t W Ht G).
Qed.
