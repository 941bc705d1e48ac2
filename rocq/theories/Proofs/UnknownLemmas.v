(** verify() and parameters that the class does not know. *)
From Coq Require Import List NArith ZArith Bool String.
From Verif Require Import Base.Ustr Base.UstrLemmas Base.Percent Base.PercentLemmas Model.Cls Model.Value Model.Pspec Model.Tables Model.Message Model.Env Model.Verify
  Model.Json Spec.JsonSpec Spec.MessageSpec Spec.VerifySpec Spec.DispatchSpec Spec.UnknownSpec
  Proofs.ValueLemmas Proofs.IdaLemmas Proofs.VerifyLemmas Proofs.RequestObjectLemmas Proofs.DispatchLemmas Proofs.TypeLemmas Proofs.MessageLemmas Proofs.EncodeLemmas Proofs.OrderLemmas.
Import ListNotations.
Open Scope list_scope.
Open Scope N_scope.

Section Keep.
Variable keep : ustr -> bool.
Definition near (d1 d2 : dict value) : Prop := forall k, keep k = true -> dget d1 k = dget d2 k.
Definition rnear {A} (r1 r2 : dict value * res A) : Prop := near (fst r1) (fst r2) /\ snd r1 = snd r2.
Definition reads (l : list string) : Prop := forall s, In s l -> keep (u s) = true.

Lemma near_has : forall (d1 d2 : dict value) k, near d1 d2 -> keep k = true -> dhas d1 k = dhas d2 k.
Proof. intros d1 d2 k H Hk. unfold dhas. rewrite (H k Hk). reflexivity. Qed.
Lemma near_dset : forall d1 d2 k (v : value), near d1 d2 -> near (dset d1 k v) (dset d2 k v).
Proof. intros d1 d2 k v H x Hx. rewrite !dget_dset, (H x Hx). reflexivity. Qed.
Lemma near_ddel : forall (d1 d2 : dict value) k, near d1 d2 -> near (ddel d1 k) (ddel d2 k).
Proof. intros d1 d2 k H x Hx. rewrite !dget_ddel, (H x Hx). reflexivity. Qed.
Lemma near_filter : forall (f : ustr -> bool) (d1 d2 : dict value), near d1 d2 ->
  near (filter (fun kv => f (fst kv)) d1) (filter (fun kv => f (fst kv)) d2).
Proof. intros f d1 d2 H x Hx. rewrite !dget_filter, (H x Hx). reflexivity. Qed.
Lemma near_dupdate : forall (e d1 d2 : dict value), near d1 d2 -> near (dupdate d1 e) (dupdate d2 e).
Proof.
  induction e as [|[k v] e IH]; intros d1 d2 H; [exact H|]. rewrite !dupdate_cons. apply IH, near_dset, H.
Qed.
Lemma near_clear : forall d1 d2, near d1 d2 -> near (clear_verified d1) (clear_verified d2).
Proof. intros d1 d2 H. unfold clear_verified. repeat apply near_ddel. exact H. Qed.
Lemma near_setitem : forall C d1 d2 k v, near d1 d2 -> rnear (setitem C d1 k v) (setitem C d2 k v).
Proof.
  intros C d1 d2 k v H. unfold setitem, rnear. destruct (dget (cd_param C) k) as [s|]; [|split; [apply near_dset, H|reflexivity]].
  destruct (add_val the_lib s v) as [[x|]|e]; [split; [apply near_dset, H|reflexivity]|split; [exact H|reflexivity]|].
  destruct e; split; try (apply near_dset, H); try exact H; reflexivity.
Qed.
Lemma near_andthen : forall {A B} (r1 r2 : dict value * res A) (f1 f2 : dict value -> A -> dict value * res B),
  rnear r1 r2 -> (forall d1 d2 a, near d1 d2 -> rnear (f1 d1 a) (f2 d2 a)) -> rnear (andthen r1 f1) (andthen r2 f2).
Proof.
  intros A B [d1 r1] [d2 r2] f1 f2 [H1 H2] Hf. cbn [fst snd] in *. subst r2. destruct r1 as [a|e]; cbn [andthen]; [apply Hf, H1|].
  split; [exact H1|reflexivity].
Qed.
Lemma near_ret : forall {A} (d1 d2 : dict value) (r : res A), near d1 d2 -> rnear (d1, r) (d2, r).
Proof. intros A d1 d2 r H. split; [exact H|reflexivity]. Qed.
Lemma near_checked : forall {A} (r1 r2 : res A) d1 d2 f1 f2, r1 = r2 -> near d1 d2 -> (near d1 d2 -> rnear (f1 d1) (f2 d2)) ->
  rnear (checked r1 d1 f1) (checked r2 d2 f2).
Proof. intros A r1 r2 d1 d2 f1 f2 -> H Hf. destruct r2; cbn [checked]; [apply Hf, H|apply near_ret, H]. Qed.
Lemma reads_sub : forall l m, (forall s, In s m -> In s l) -> reads l -> reads m.
Proof. intros l m H R s Hs. apply R, H, Hs. Qed.

(** rewrite the lookups of what is kept *)
Ltac kk R := first [assumption | apply R; cbn; tauto].
Ltac nlooks H R := repeat match type of H with near ?d1 ?d2 =>
  match goal with
  | |- context [dget d1 ?k] => rewrite (H k) by kk R
  | |- context [dhas d1 ?k] => rewrite (near_has _ _ k H) by kk R
  end end.

Definition declares (C : clsdef) : Prop := forall k, dhas (cd_param C) k = true -> keep k = true.
Lemma mapM_eq_in : forall {A B} (f g : A -> res B) l, (forall x, In x l -> f x = g x) -> mapM f l = mapM g l.
Proof.
  intros A B f g l H. induction l as [|x l IH]; cbn [mapM]; [reflexivity|]. rewrite (H x), IH; [reflexivity|intros y Hy; apply H; right; exact Hy|left; reflexivity].
Qed.
Lemma base_near : forall C d1 d2, declares C -> near d1 d2 -> verify_base C d1 = verify_base C d2.
Proof.
  intros C d1 d2 D H. unfold verify_base. rewrite (mapM_eq_in _ (fun ks => verify_param C d2 (fst ks) (snd ks))); [reflexivity|].
  intros [k s] Hin. unfold verify_param. cbn [fst snd]. rewrite (H k); [reflexivity|]. apply D. apply dhas_In. apply (in_map fst) in Hin. exact Hin.
Qed.
Definition rd_response : list string := ["error_description"]%string.
Lemma response_near : forall C d1 d2, declares C -> reads rd_response -> near d1 d2 -> response_verify C d1 = response_verify C d2.
Proof. intros C d1 d2 D R H. unfold response_verify. rewrite (base_near C _ _ D H). nlooks H R. reflexivity. Qed.
Definition rd_authz : list string := ["error_description"; "client_id"; "iss"]%string.
Lemma authz_response_near : forall K C d1 d2, declares C -> reads rd_authz -> near d1 d2 ->
  authz_response_verify K C d1 = authz_response_verify K C d2.
Proof.
  intros K C d1 d2 D R H. unfold authz_response_verify. rewrite (response_near C d1 d2 D); [nlooks H R; reflexivity| |exact H].
  apply (reads_sub rd_authz); [cbn; tauto|exact R].
Qed.
Definition none_in (d : dict value) : bool := existsb (fun kv => match snd kv with VNone => true | _ => false end) d.
Definition rd_schema : list string := ["error_description"; "birthdate"]%string.
Lemma schema_near : forall C d1 d2, declares C -> reads rd_schema -> near d1 d2 -> none_in d1 = none_in d2 -> schema_verify C d1 = schema_verify C d2.
Proof.
  intros C d1 d2 D R H Hn. unfold schema_verify. rewrite (response_near C d1 d2 D); [| |exact H]; [|apply (reads_sub rd_schema); [cbn; tauto|exact R]].
  unfold none_in in Hn. rewrite Hn. nlooks H R. reflexivity.
Qed.
Definition rd_idtoken : list string := ["error_description"; "birthdate"; "aud"; "azp"; "exp"; "iat"; "iss"; "nonce"]%string.
Lemma idtoken_near : forall E K C d1 d2, declares C -> reads rd_idtoken -> near d1 d2 -> none_in d1 = none_in d2 ->
  idtoken_verify E K C d1 = idtoken_verify E K C d2.
Proof.
  intros E K C d1 d2 D R H Hn. unfold idtoken_verify, idtoken_aud, idtoken_times.
  rewrite (schema_near C d1 d2 D); [| |exact H|exact Hn]; [|apply (reads_sub rd_idtoken); [cbn; tauto|exact R]].
  nlooks H R. reflexivity.
Qed.
Definition rd_jwt : list string := ["aud"; "exp"; "iat"; "iss"; "nbf"]%string.
Lemma jwt_near : forall E K C d1 d2, declares C -> reads rd_jwt -> near d1 d2 -> jwt_verify E K C d1 = jwt_verify E K C d2.
Proof. intros E K C d1 d2 D R H. unfold jwt_verify. rewrite (base_near C _ _ D H). nlooks H R. reflexivity. Qed.
Definition rd_provider : list string :=
  ["error_description"; "id_token_signing_alg_values_supported"; "issuer"; "response_types_supported"; "scopes_supported"; "token_endpoint"]%string.
Lemma provider_near : forall E K C d1 d2, declares C -> reads rd_provider -> near d1 d2 -> provider_verify E K C d1 = provider_verify E K C d2.
Proof.
  intros E K C d1 d2 D R H. unfold provider_verify, getitem. rewrite (response_near C d1 d2 D); [nlooks H R; reflexivity| |exact H].
  apply (reads_sub rd_provider); [cbn; tauto|exact R].
Qed.
Definition rd_regresp : list string := ["error_description"; "registration_client_uri"; "registration_access_token"]%string.
Lemma regresp_near : forall C d1 d2, declares C -> reads rd_regresp -> near d1 d2 -> registration_response_verify C d1 = registration_response_verify C d2.
Proof.
  intros C d1 d2 D R H. unfold registration_response_verify. rewrite (response_near C d1 d2 D); [nlooks H R; reflexivity| |exact H].
  apply (reads_sub rd_regresp); [cbn; tauto|exact R].
Qed.
Definition rd_logout : list string := ["aud"; "events"; "iat"; "iss"; "nonce"; "sid"; "sub"]%string.
Lemma logout_near : forall E K C hdr d1 d2, declares C -> reads rd_logout -> near d1 d2 ->
  logout_token_verify E K C hdr d1 = logout_token_verify E K C hdr d2.
Proof. intros E K C hdr d1 d2 D R H. unfold logout_token_verify, getitem. rewrite (base_near C _ _ D H). nlooks H R. reflexivity. Qed.
Definition rd_device : list string := ["client_id"; "device_code"; "grant_type"]%string.
Lemma device_near : forall C d1 d2, declares C -> reads rd_device -> near d1 d2 -> device_verify C d1 = device_verify C d2.
Proof. intros C d1 d2 D R H. unfold device_verify. rewrite (base_near C _ _ D H). nlooks H R. reflexivity. Qed.
Lemma claims_near : forall c (d1 d2 : dict value), declares (cdef c) -> near d1 d2 -> verify_claims_request (VDict d1) c = verify_claims_request (VDict d2) c.
Proof.
  intros c d1 d2 D H. cbn [verify_claims_request].
  assert (G : forall (f : value -> vtyp -> res unit) (d : dict value) k, dget (map (fun kv : ustr * value => (fst kv, f (snd kv))) d) k = option_map f (dget d k)).
  { intros f d k. induction d as [|[k0 v0] d IH]; cbn [map dget fst snd]; [reflexivity|]. destruct (ueqb k k0); [reflexivity|exact IH]. }
  assert (D' : forall k s, In (k, s) (cd_param (cdef c)) -> keep k = true).
  { intros k s Hin. apply D. apply dhas_In. apply (in_map fst) in Hin. exact Hin. }
  clear D. revert D'. induction (cd_param (cdef c)) as [|[k s] P IH]; intro D; cbn [check_params]; [reflexivity|].
  rewrite !G, (H k) by (apply (D k s); left; reflexivity). rewrite IH; [reflexivity|]. intros k0 s0 H0. apply (D k0 s0). right. exact H0.
Qed.
Lemma request_near : forall C c d1 d2, declares C -> declares (cdef c) -> near d1 d2 -> request_verify C c d1 = request_verify C c d2.
Proof. intros C c d1 d2 D Dc H. unfold request_verify. rewrite (base_near C _ _ D H), (claims_near c _ _ Dc H). reflexivity. Qed.

(** ** functions that change the message *)
Lemma near_verify_id_token : forall E i K C ch claim d1 d2, keep claim = true -> (ch = true -> reads ["access_token"; "code"]%string) -> near d1 d2 ->
  rnear (verify_id_token E i K C ch claim d1) (verify_id_token E i K C ch claim d2).
Proof.
  intros E i K C ch claim d1 d2 Hc R H.
  assert (E1 : check_id_token E i K ch claim d1 = check_id_token E i K ch claim d2).
  { unfold check_id_token, getitem. rewrite (H claim Hc). destruct ch.
    - specialize (R eq_refl). unfold hashes_check, hash_check. nlooks H R. reflexivity.
    - destruct (dget d2 claim); [|reflexivity]. cbn [bind]. destruct (e_jws E v) as [[tok|]|]; try reflexivity. cbn [bind].
      destruct (alg_check K tok); [|reflexivity]. cbn [bind]. rewrite andb_false_r. reflexivity. }
  unfold verify_id_token. rewrite E1. destruct (check_id_token E i K ch claim d2) as [[idt|]|e]; try apply near_ret; try exact H.
  apply near_andthen; [apply near_setitem, H|]. intros e1 e2 _ He. destruct (to_dict _ idt); apply near_ret, He.
Qed.
Lemma near_with : forall E K C ch d1 d2, keep (u "id_token") = true -> (ch = true -> reads ["access_token"; "code"]%string) -> near d1 d2 ->
  rnear (with_id_token E K C ch d1) (with_id_token E K C ch d2).
Proof.
  intros E K C ch d1 d2 Hk R H. unfold with_id_token. rewrite (near_has _ _ _ H Hk).
  destruct (dhas d2 _); [apply near_verify_id_token; assumption|apply near_ret, H].
Qed.
Lemma near_merge : forall ro t d1 d2, near d1 d2 -> near (merge d1 ro t) (merge d2 ro t).
Proof.
  intros ro t d1 d2 H. unfold merge. apply near_dupdate. destruct t as [| |[|x l]|]; try exact H.
  - apply (near_filter (dhas ro)), H.
  - apply (near_filter (fun k => umem k (x :: l))), H.
Qed.
Lemma near_jar : forall E K C t r d1 d2, near d1 d2 -> rnear (jar_merge E K C t d1 r) (jar_merge E K C t d2 r).
Proof.
  intros E K C t r d1 d2 H. unfold jar_merge, clear. destruct (bind _ _) as [[req h]|e]; [|apply near_ret, near_ddel, H].
  pose proof (near_setitem C _ _ (verified_claim_name (u "request")) (VMsg C_oauth2_AuthorizationRequest req)
    (near_merge req t _ _ (near_ddel _ _ (verified_claim_name (u "request")) H))) as [G1 G2].
  destruct (setitem C (merge (ddel d1 _) req t) _ _) as [a ra], (setitem C (merge (ddel d2 _) req t) _ _) as [b rb].
  cbn [fst snd] in *. subst rb. destruct ra; apply near_ret, G1.
Qed.
Lemma near_enc : forall C p d1 d2, keep (p ++ u "_alg") = true -> keep (p ++ u "_enc") = true -> near d1 d2 -> rnear (enc_default C p d1) (enc_default C p d2).
Proof.
  intros C p d1 d2 Ha Hn H. unfold enc_default. cbv zeta. apply near_andthen.
  - rewrite (near_has _ _ _ H Ha), (near_has _ _ _ H Hn). destruct (_ && _); [apply near_setitem, H|apply near_ret, H].
  - intros e1 e2 _ He. rewrite (near_has _ _ _ He Ha), (near_has _ _ _ He Hn). destruct (_ && _); apply near_ret, He.
Qed.

(** the request object: what both have is logged alike *)
Definition nomsg (d : dict value) : Prop := forall k v, keep k = false -> dget d k = Some v -> forall c m, v <> VMsg c m.
Lemma log_plain : forall v, (forall c m, v <> VMsg c m) -> log_text v = Ok tt.
Proof. intros [] H; try reflexivity. destruct (H c d eq_refl). Qed.
Lemma near_request_step : forall E K C args d1 d2, reads ["request"]%string -> near d1 d2 -> nomsg d1 -> nomsg d2 ->
  (forall t ro h, from_jwt E 0 (cdef C_oidc_OpenIDRequest) t (kw_jar K) true args = Ok (ro, h) -> forall k v, In (k, v) ro -> keep k = false -> forall c m, v <> VMsg c m) ->
  rnear (request_step E K C args d1) (request_step E K C args d2).
Proof.
  intros E K C args d1 d2 R H N1 N2 HR. unfold request_step. nlooks H R. destruct (dget d2 (u "request")) as [[]|]; try (apply near_ret, H).
  destruct (from_jwt _ _ _ _ _ _ _) as [[ro h]|e] eqn:EJ; [|apply near_ret, H]. specialize (HR _ _ _ EJ).
  assert (L : ro_log d1 ro = ro_log d2 ro).
  { unfold ro_log. erewrite mapM_eq_in; [reflexivity|]. intros [k v] Hin. cbn [fst snd]. destruct (keep k) eqn:Ek.
    - rewrite (H k Ek). reflexivity.
    - assert (A : forall d, nomsg d -> match dget d k with Some x => if py_ne x v then do _ <- log_text x ; log_text v else Ok tt | None => Ok tt end = Ok tt).
      { intros d Nd. destruct (dget d k) as [x|] eqn:Ex; [|reflexivity]. destruct (py_ne x v); [|reflexivity].
        rewrite (log_plain x (Nd k x Ek Ex)). cbn [bind]. apply log_plain. exact (HR k v Hin Ek). }
      rewrite (A d1 N1), (A d2 N2). reflexivity. }
  rewrite L. destruct (ro_log d2 ro); [|apply near_ret, H]. apply near_setitem. unfold ro_replace.
  apply near_dupdate, (near_filter (dhas ro)), H.
Qed.
Lemma near_hint_step : forall E K C args d1 d2, reads ["id_token_hint"]%string -> near d1 d2 -> rnear (hint_step E K C args d1) (hint_step E K C args d2).
Proof.
  intros E K C args d1 d2 R H. unfold hint_step. nlooks H R. destruct (dget d2 (u "id_token_hint")) as [[]|]; try (apply near_ret, H).
  destruct (from_jwt _ _ _ _ _ _ _) as [[ro h]|e]; [|apply near_ret, H]. apply near_setitem, H.
Qed.
Lemma rules_near : forall K d1 d2, reads ["nonce"; "prompt"; "response_type"; "scope"]%string -> near d1 d2 -> request_rules K d1 = request_rules K d2.
Proof. intros K d1 d2 R H. unfold request_rules, get. nlooks H R. reflexivity. Qed.
Lemma args_near : forall K d1 d2, reads ["client_id"]%string -> near d1 d2 -> authz_args K d1 = authz_args K d2.
Proof. intros K d1 d2 R H. unfold authz_args. nlooks H R. reflexivity. Qed.

Definition rd_id : list string := ["id_token"]%string.
Definition rd (k : vkind) (resp : bool) : list string :=
  match k with
  | KBase | KEvidence | KVerificationRequest | KVerifiedClaimsRequest => []
  | KResponse => rd_response
  | KAuthzResponse => rd_authz
  | KJar => ["request"; "request_uri"]
  | KPar => ["request"]
  | KTokenResponse => app rd_response rd_id
  | KOidcAuthzResponse => app rd_authz (app rd_id ["aud"; "access_token"; "code"])
  | KOidcAuthzRequest => ["nonce"; "prompt"; "response_type"; "scope"; "client_id"; "request"; "id_token_hint"]
  | KSchema => rd_schema
  | KRegistration => ["initiate_login_uri"; "token_endpoint_auth_signing_alg"; "request_object_encryption_alg"; "request_object_encryption_enc";
      "id_token_encrypted_response_alg"; "id_token_encrypted_response_enc"; "userinfo_encrypted_response_alg"; "userinfo_encrypted_response_enc"]
  | KRegistrationResponse => rd_regresp
  | KIdToken => rd_idtoken
  | KWithIdToken => app (if resp then rd_response else []) rd_id
  | KProvider => rd_provider
  | KJwt => rd_jwt
  | KEndSession => ["id_token_hint"; "post_logout_redirect_uri"]
  | KLogoutToken => rd_logout
  | KBackChannel => ["logout_token"]
  | KIdaClaims => ["verified_claims"]
  | KDevice => rd_device
  end%string.

Ltac sub R := eapply reads_sub; [|exact R]; cbn; tauto.

Lemma unknown_kind : forall E K hdr c d1 d2, near d1 d2 -> declares (cdef c) -> reads (rd (vkind_of c) (subclass c C_oauth2_ResponseMessage)) ->
  (vkind_of c = KSchema \/ vkind_of c = KIdToken -> none_in d1 = none_in d2) ->
  (vkind_of c = KVerificationRequest -> declares (cdef C_ida_VerificationElement)) ->
  (vkind_of c = KVerifiedClaimsRequest -> declares (cdef C_ida_VerifiedClaims)) ->
  (vkind_of c = KOidcAuthzRequest -> nomsg d1 /\ nomsg d2 /\ forall args t ro h, from_jwt E 0 (cdef C_oidc_OpenIDRequest) t (kw_jar K) true args = Ok (ro, h) ->
     forall k v, In (k, v) ro -> keep k = false -> forall c m, v <> VMsg c m) ->
  vkind_of c <> KEvidence -> rnear (verify E K hdr c d1) (verify E K hdr c d2).
Proof.
  intros E K hdr c d1 d2 H D R HN HV HC HA Hk. unfold verify. destruct (vkind_of c); unfold pure; cbn [rd] in R.
  - rewrite (base_near _ _ _ D H). apply near_ret, H.
  - rewrite (response_near _ _ _ D R H). apply near_ret, H.
  - rewrite (authz_response_near _ _ _ _ D R H). apply near_ret, H.
  - unfold jar_verify. nlooks H R. destruct (dget d2 (u "request")); [apply near_jar, H|]. destruct (dhas d2 _); apply near_ret, H.
  - unfold par_verify. nlooks H R. destruct (dget d2 (u "request")); [apply near_jar, H|]. apply near_ret, H.
  - unfold oidc_token_response_verify. apply near_checked; [apply response_near; [exact D|sub R|exact H]|exact H|].
    intros _. apply near_with; [kk R|discriminate|apply near_clear, H].
  - unfold oidc_authz_response_verify. apply near_checked; [apply authz_response_near; [exact D|sub R|exact H]|exact H|]. intros _. cbv zeta.
    pose proof (near_clear _ _ H) as H1. nlooks H1 R.
    assert (W : rnear (with_id_token E K (cdef c) true (clear_verified d1)) (with_id_token E K (cdef c) true (clear_verified d2))).
    { apply near_with; [kk R|intros _; sub R|exact H1]. }
    destruct (dget (clear_verified d2) (u "aud")); [|exact W].
    destruct (kget K _); [|exact W]. destruct (not_in _ _) as [[]|]; try (apply near_ret, H1). exact W.
  - unfold oidc_authz_request_verify. apply near_checked; [apply base_near; assumption|exact H|]. intros _. cbv zeta.
    pose proof (near_clear _ _ H) as H1. destruct (HA eq_refl) as (N1 & N2 & HR).
    assert (NC : forall d, nomsg d -> nomsg (clear_verified d)).
    { intros d Nd k v Hk' Hg. apply (Nd k v Hk'). unfold clear_verified in Hg. rewrite !dget_ddel in Hg.
      repeat match type of Hg with (if ?b then _ else _) = _ => destruct b; [discriminate|] end. exact Hg. }
    rewrite (args_near _ _ (clear_verified d2)); [|sub R|exact H1]. destruct (authz_args _ _); [|apply near_ret, H1].
    apply near_andthen; [apply near_request_step; [sub R|exact H1|apply NC, N1|apply NC, N2|intros t ro h; apply HR]|].
    intros e1 e2 _ He. apply near_andthen; [apply near_hint_step; [sub R|exact He]|].
    intros f1 f2 _ Hf. rewrite (rules_near _ f1 f2); [|sub R|exact Hf]. apply near_ret, Hf.
  - rewrite (schema_near _ d1 d2 D R H); [|apply HN; left; reflexivity]. apply near_ret, H.
  - unfold registration_verify. apply near_checked; [apply base_near; assumption|exact H|]. intros _. apply near_checked; [nlooks H R; reflexivity|exact H|].
    intros _. apply near_andthen; [apply near_enc; [exact (R "request_object_encryption_alg"%string ltac:(cbn; tauto))|exact (R "request_object_encryption_enc"%string ltac:(cbn; tauto))|exact H]|].
    intros a1 a2 _ Ha. apply near_andthen; [apply near_enc; [exact (R "id_token_encrypted_response_alg"%string ltac:(cbn; tauto))|exact (R "id_token_encrypted_response_enc"%string ltac:(cbn; tauto))|exact Ha]|].
    intros b1 b2 _ Hb. apply near_andthen; [apply near_enc; [exact (R "userinfo_encrypted_response_alg"%string ltac:(cbn; tauto))|exact (R "userinfo_encrypted_response_enc"%string ltac:(cbn; tauto))|exact Hb]|].
    intros e1 e2 _ He. nlooks He R. apply near_ret, He.
  - rewrite (regresp_near _ _ _ D R H). apply near_ret, H.
  - rewrite (idtoken_near _ _ _ d1 d2 D R H); [|apply HN; right; reflexivity]. apply near_ret, H.
  - unfold mwit_verify. apply near_checked; [|exact H|intros _; apply near_with; [|discriminate|exact H]].
    + unfold mwit_super. destruct (subclass _ _); [apply response_near; [exact D|sub R|exact H]|apply base_near; assumption].
    + apply R. destruct (subclass _ _); cbn; tauto.
  - rewrite (provider_near _ _ _ _ _ D R H). apply near_ret, H.
  - rewrite (jwt_near _ _ _ _ _ D R H). apply near_ret, H.
  - unfold end_session_verify. apply near_checked; [apply base_near; assumption|exact H|]. intros _. cbv zeta.
    pose proof (near_clear _ _ H) as H1. nlooks H1 R. destruct (dget (clear_verified d2) _); [|apply near_ret, H1].
    destruct (bind _ _) as [[idt h]|]; [|apply near_ret, H1]. apply near_andthen; [apply near_verify_id_token; [kk R|discriminate|exact H1]|].
    intros e1 e2 [] He; [|apply near_ret, He]. apply near_andthen; [apply near_setitem, He|]. intros f1 f2 _ Hf. apply near_ret, Hf.
  - rewrite (logout_near _ _ _ _ _ _ D R H). apply near_ret, H.
  - unfold backchannel_verify, getitem. apply near_checked; [apply base_near; assumption|exact H|]. intros _. nlooks H R.
    destruct (dget d2 _); [|apply near_ret, H]. destruct (bind _ _) as [[t h]|]; [|apply near_ret, H].
    destruct (logout_token_verify _ _ _ _ _) as [[]|]; try (apply near_ret, H). apply near_andthen; [apply near_setitem, H|].
    intros e1 e2 _ He. destruct (to_dict _ t); apply near_ret, He.
  - congruence.
  - rewrite (request_near _ _ _ _ D (HV eq_refl) H). apply near_ret, H.
  - rewrite (request_near _ _ _ _ D (HC eq_refl) H). apply near_ret, H.
  - unfold ida_claims_verify, get. rewrite (base_near _ _ _ D H). destruct (verify_base _ _); [|apply near_ret, H]. cbv zeta. nlooks H R.
    destruct (truthy _); [|apply near_ret, H].
    match goal with |- rnear (match ?x with _ => _ end) _ => destruct x as [m|e] end; [|apply near_ret, H].
    destruct (request_verify _ _ _); [|apply near_ret, H].
    pose proof (near_setitem (cdef c) d1 d2 (u "verified_claims") (VMsg C_ida_VerifiedClaimsRequest m) H) as [G1 G2].
    destruct (setitem (cdef c) d1 _ _) as [x rx], (setitem (cdef c) d2 _ _) as [y ry]. cbn [fst snd] in *. subst ry. destruct rx; apply near_ret, G1.
  - rewrite (device_near _ _ _ D R H). apply near_ret, H.
Qed.
End Keep.

(** ** the tables *)
Lemma rd_known : forall c s, In s (rd (vkind_of c) (subclass c C_oauth2_ResponseMessage)) -> known c (u s) = true.
Proof.
  assert (H : forallb (fun c => forallb (fun s => known c (u s)) (rd (vkind_of c) (subclass c C_oauth2_ResponseMessage))) all_cls = true)
    by (vm_compute; reflexivity).
  intros c s Hs. rewrite forallb_forall in H. specialize (H c (in_all_cls c)). rewrite forallb_forall in H. exact (H s Hs).
Qed.
Lemma declared_known : forall c k, dhas (cd_param (cdef c)) k = true -> known c k = true.
Proof. intros c k H. unfold known. rewrite H. reflexivity. Qed.
Definition covers (c b : cls) : bool := forallb (fun ks => dhas (cd_param (cdef c)) (fst ks)) (cd_param (cdef b)).
Lemma covers_ok : forall c b k, covers c b = true -> dhas (cd_param (cdef b)) k = true -> dhas (cd_param (cdef c)) k = true.
Proof.
  intros c b k H Hk. unfold covers in H. rewrite forallb_forall in H. apply dhas_In in Hk. apply in_map_iff in Hk. destruct Hk as (x & <- & Hx).
  apply (H x Hx).
Qed.
Lemma kind_covers : forall c, (vkind_of c = KVerificationRequest -> covers c C_ida_VerificationElement = true) /\
  (vkind_of c = KVerifiedClaimsRequest -> covers c C_ida_VerifiedClaims = true) /\
  (vkind_of c = KOidcAuthzRequest -> covers c C_oidc_OpenIDRequest = true /\ subclass c C_oidc_AuthorizationRequest = true).
Proof. intro c. destruct c; vm_compute; (split; [|split]); intro H; try discriminate; try reflexivity; split; reflexivity. Qed.

(** ** members of what is read are no messages *)
Definition vals_plain (l : dict value) : Prop := forall k x, In (k, x) l -> forall c d, x <> VMsg c d.
Lemma dset_plain : forall (d : dict value) k x, vals_plain d -> (forall c m, x <> VMsg c m) -> vals_plain (dset d k x).
Proof.
  induction d as [|[k0 x0] d IH]; intros k x H Hx; cbn [dset].
  - intros k1 x1 [E|[]]. injection E as <- <-. exact Hx.
  - destruct (ueqb k k0); intros k1 x1 [E|E].
    + injection E as <- <-. exact Hx.
    + apply (H k1 x1). right. exact E.
    + injection E as <- <-. apply (H k0 x0). left. reflexivity.
    + apply (IH k x) with (k := k1); [|exact Hx|exact E]. intros k2 x2 H2. apply (H k2 x2). right. exact H2.
Qed.
Lemma dupdate_plain : forall (l d : dict value), vals_plain d -> vals_plain l -> vals_plain (dupdate d l).
Proof.
  induction l as [|[k x] l IH]; intros d Hd Hl; [exact Hd|]. rewrite dupdate_cons. apply IH.
  - apply dset_plain; [exact Hd|]. apply (Hl k x). left. reflexivity.
  - intros k1 x1 H1. apply (Hl k1 x1). right. exact H1.
Qed.
Lemma jobj_plain : forall n s l r, jobj n s = Ok (l, r) -> vals_plain l.
Proof.
  induction n as [|n IH]; intros s l r H; [discriminate|]. cbn [jobj] in H. destruct s as [|q r0]; [discriminate|].
  destruct (q =? 34); [|discriminate]. destruct (jscan r0) as [[k r1]|]; [|discriminate]. destruct (skipws r1) as [|c r2]; [discriminate|].
  destruct (c =? 58); [|discriminate]. destruct (jval n (skipws r2)) as [[v rest]|] eqn:Ev; [|discriminate].
  destruct (skipws rest) as [|c2 r3]; [discriminate|]. destruct (c2 =? 125).
  - injection H as <- _. intros k1 x1 [E|[]]. injection E as <- <-. exact (jval_no_msg _ _ _ _ Ev).
  - destruct (c2 =? 44); [|discriminate]. destruct (jobj n (skipws r3)) as [[l' r']|] eqn:El; [|discriminate]. injection H as <- _.
    intros k1 x1 [E|E]; [injection E as <- <-; exact (jval_no_msg _ _ _ _ Ev)|exact (IH _ _ _ El k1 x1 E)].
Qed.
Lemma jval_plain : forall n s v r, jval n s = Ok (v, r) -> match v with VDict l => vals_plain l | VMsg _ _ => False | _ => True end.
Proof.
  intros [|n] s v r H; [discriminate|]. destruct s as [|x s]; [discriminate|]. cbn [jval] in H.
  destruct (x =? 34). { destruct (jscan s) as [[? ?]|]; [|discriminate]. injection H as <- _. exact I. }
  destruct (x =? 123).
  { destruct (skipws s) as [|c1 r1]; [discriminate|]. destruct (c1 =? 125). { injection H as <- _. intros ? ? []. }
    destruct (jobj n (c1 :: r1)) as [[l ?]|] eqn:El; [|discriminate]. injection H as <- _. unfold dict_of. apply dupdate_plain; [intros ? ? []|].
    exact (jobj_plain _ _ _ _ El). }
  destruct (x =? 91).
  { destruct (skipws s) as [|c1 r1]; [discriminate|]. destruct (c1 =? 93). { injection H as <- _. exact I. }
    destruct (jarr n (c1 :: r1)) as [[? ?]|]; [|discriminate]. injection H as <- _. exact I. }
  do 3 (match type of H with (if ?b then _ else _) = _ => destruct b end; [injection H as <- _; exact I|]).
  match type of H with (if ?b then _ else _) = _ => destruct b end; [discriminate|].
  destruct (x =? 45); apply jnum_int in H; destruct H as [[z ->]|[z ->]]; exact I.
Qed.
Lemma loads_plain : forall s v, json_loads s = Ok v -> match v with VDict l => vals_plain l | VMsg _ _ => False | _ => True end.
Proof.
  intros s v H. unfold json_loads in H. destruct s as [|c s]; [discriminate|]. destruct (c =? 65279); [discriminate|].
  destruct (jval _ _) as [[v' rest]|] eqn:E; [|discriminate]. destruct (skipws rest); [|discriminate].
  injection H as <-. exact (jval_plain _ _ _ _ E).
Qed.
Lemma items_plain : forall L P l d d', dget P (u "*") = None -> vals_plain l -> from_items L P d l = (d', Ok tt) ->
  forall k, dhas P k = false -> dhas P (base_key k) = false -> (forall v, dget d k = Some v -> forall c m, v <> VMsg c m) ->
  forall v, dget d' k = Some v -> forall c m, v <> VMsg c m.
Proof.
  intros L P l d d' Hs. revert d. induction l as [|[k0 v0] l IH]; intros d Hl H k Hk Hb Hd; cbn [from_items] in H; [injection H as <-; exact Hd|].
  assert (Hl' : vals_plain l) by (intros a b Hab; apply (Hl a b); right; exact Hab).
  destruct (fd_entry L P k0 v0) as [[x|]|e] eqn:Ef; [|exact (IH d Hl' H k Hk Hb Hd)|discriminate].
  apply (IH (dset d k0 x) Hl' H k Hk Hb). intros v Hv. rewrite dget_dset in Hv. destruct (ueqb k k0) eqn:Ek; [|exact (Hd v Hv)].
  apply ueqb_eq in Ek. subst k0. injection Hv as <-. unfold fd_entry in Ef. destruct (is_blank v0); [discriminate|].
  apply dhas_false in Hk, Hb. rewrite Hk, Hb, Hs in Ef. injection Ef as <-. apply (Hl k v0). left. reflexivity.
Qed.
Lemma jwt_plain : forall E i c t jar vfy args ro h, json_payloads E -> cd_default (cdef c) = [] -> dget (cd_param (cdef c)) (u "*") = None ->
  from_jwt E i (cdef c) t jar vfy args = Ok (ro, h) ->
  forall k v, In (k, v) ro -> dhas (cd_param (cdef c)) k = false -> dhas (cd_param (cdef c)) (base_key k) = false -> forall x m, v <> VMsg x m.
Proof.
  intros E i c t jar vfy args ro h HE Hd Hs H k v Hin Hk Hb.
  assert (G : exists b, match b with VDict l => vals_plain l | VMsg _ _ => False | _ => True end /\ from_dict (cdef c) [] b = (ro, Ok tt)).
  { unfold from_jwt in H. destruct jar; [|discriminate]. cbn [negb] in H. destruct (jwt_decrypt E i t args) as [t'|]; [|discriminate]. cbn [bind] in H.
    destruct (e_jws E (VStr t')) as [[tok|]|] eqn:Ej; [| |discriminate]; cbn [bind] in H.
    - destruct (t_body tok) as [b|] eqn:Eb; [|discriminate]. cbn [bind] in H. destruct (jwt_check _ _ _ _ _ _); [|discriminate]. cbn [bind] in H.
      exists b. split; [exact (HE _ _ _ Ej Eb)|]. rewrite Hd in H. destruct (from_dict (cdef c) [] b) as [d' [[]|]]; [|discriminate].
      injection H as <- _. reflexivity.
    - destruct (json_loads t') as [b|] eqn:Eb; [|discriminate]. cbn [bind] in H.
      exists b. split; [exact (loads_plain _ _ Eb)|]. rewrite Hd in H. destruct (from_dict (cdef c) [] b) as [d' [[]|]]; [|discriminate].
      injection H as <- _. reflexivity. }
  destruct G as (b & Hb' & G). pose proof (from_dict_nodup (cdef c) b [] ro (Ok tt) (NoDup_nil _) G) as Hn. apply (In_dget _ _ _ Hn) in Hin.
  unfold from_dict, from_dict_gen in G. destruct b as [| | | | | |l|]; cbn [items] in G; try discriminate; [|destruct Hb'].
  refine (items_plain _ _ _ _ _ Hs Hb' G k Hk Hb _ v Hin). discriminate.
Qed.

Theorem unknown : forall E K hdr c keep d1 d2, NoDup (map fst d1) -> NoDup (map fst d2) ->
  (forall k, known c k = true -> keep k = true) -> agree_on keep d1 d2 ->
  (subclass c C_oidc_AuthorizationRequest = true -> json_payloads E) ->
  same_outcome c keep (verify E K hdr c d1) (verify E K hdr c d2).
Proof.
  intros E K hdr c keep d1 d2 H1 H2 Hkn [Ha Ho] HE. unfold same_outcome. destruct (subclass c C_ida_Evidence) eqn:Es.
  - apply kind_evidence in Es. destruct (evidence_kind E K hdr c d1 Es) as [A1 [e A2]], (evidence_kind E K hdr c d2 Es) as [B1 [f B2]].
    rewrite A1, A2, B1, B2. split; [exact Ha|]. split; [|discriminate]. intro b. split; discriminate.
  - assert (Hk : vkind_of c <> KEvidence) by (intro X; apply kind_evidence in X; congruence).
    destruct (kind_covers c) as (C1 & C2 & C3).
    destruct (unknown_kind keep E K hdr c d1 d2) as [G1 G2]; try assumption.
    + intros k Hd. apply Hkn, declared_known, Hd.
    + intros s Hs. apply Hkn, rd_known, Hs.
    + intros _. apply eq_true_iff_eq. unfold none_in. rewrite !existsb_exists.
      assert (T : forall a b : dict value, NoDup (map fst a) -> (forall k, keep k = true -> dget a k = dget b k) ->
        (forall k v, keep k = false -> dget a k = Some v -> v <> VNone) ->
        (exists x, In x a /\ match snd x with VNone => true | _ => false end = true) ->
        exists x, In x b /\ match snd x with VNone => true | _ => false end = true).
      { intros a b Na Hab Hno ([k v] & Hin & Hv). exists (k, v). split; [|exact Hv]. apply (In_dget _ _ _ Na) in Hin. apply dget_In.
        destruct (keep k) eqn:Ek; [rewrite <- (Hab k Ek); exact Hin|]. destruct v; try discriminate. destruct (Hno k VNone Ek Hin eq_refl). }
      split; apply T; try assumption.
      * intros k v Ek Hg. apply (Ho k v Ek). left. exact Hg.
      * intros k Ek. symmetry. apply Ha, Ek.
      * intros k v Ek Hg. apply (Ho k v Ek). right. exact Hg.
    + intros X k Hd. apply Hkn, declared_known. apply (covers_ok c C_ida_VerificationElement); [exact (C1 X)|exact Hd].
    + intros X k Hd. apply Hkn, declared_known. apply (covers_ok c C_ida_VerifiedClaims); [exact (C2 X)|exact Hd].
    + intro X. destruct (C3 X) as [Cc Cs]. split; [|split].
      * intros k v Ek Hg. apply (Ho k v Ek). left. exact Hg.
      * intros k v Ek Hg. apply (Ho k v Ek). right. exact Hg.
      * intros args t ro h EJ k v Hin Ek.
        assert (Hu : known c k = false) by (destruct (known c k) eqn:Eu; [rewrite (Hkn k Eu) in Ek; discriminate|reflexivity]).
        unfold known in Hu. apply orb_false_iff in Hu. destruct Hu as [Hu _]. apply orb_false_iff in Hu. destruct Hu as [Hu1 Hu2].
        assert (Q : forall x, dhas (cd_param (cdef c)) x = false -> dhas (cd_param (cdef C_oidc_OpenIDRequest)) x = false).
        { intros x Hx. destruct (dhas (cd_param (cdef C_oidc_OpenIDRequest)) x) eqn:Eo; [|reflexivity].
          rewrite (covers_ok c _ x Cc Eo) in Hx. discriminate. }
        refine (jwt_plain E 0 C_oidc_OpenIDRequest t _ _ args ro h (HE Cs) _ _ EJ k v Hin (Q _ Hu1) (Q _ Hu2)); vm_compute; reflexivity.
    + split; [exact G1|]. rewrite G2. split; reflexivity.
Qed.

(** ** reading *)
Section Reading.
Variable c : cls.
Let P := cd_param (cdef c).
Let kn (x : ustr) := known c x.

Lemma no_star : dget P (u "*") = None.
Proof.
  assert (H : forallb (fun c => negb (dhas (cd_param (cdef c)) (u "*"))) all_cls = true) by (vm_compute; reflexivity).
  rewrite forallb_forall in H. specialize (H c (in_all_cls c)). apply negb_true_iff in H. apply dhas_false in H. exact H.
Qed.
Lemma unknown_none : forall k, known c k = false -> dget P k = None /\ dget P (base_key k) = None.
Proof.
  intros k H. unfold known in H. apply orb_false_iff in H. destruct H as [H _]. apply orb_false_iff in H. destruct H as [H1 H2].
  apply dhas_false in H1, H2. split; assumption.
Qed.
Definition good (d : dict value) : Prop := forall k v, known c k = false -> dget d k = Some v -> ordinary v.
Lemma defaults_good : good (cd_default (cdef c)).
Proof.
  assert (H : forallb (fun c => forallb (fun kv : ustr * value => match snd kv with VNone | VMsg _ _ => false | _ => true end) (cd_default (cdef c))) all_cls = true)
    by (vm_compute; reflexivity).
  intros k v Hk E. apply dget_In in E.
  rewrite forallb_forall in H. specialize (H c (in_all_cls c)). rewrite forallb_forall in H. specialize (H (k, v) E). cbn [snd] in H.
  destruct v; try discriminate; split; try discriminate; intros; discriminate.
Qed.
Lemma good_dset : forall d k x, good d -> (known c k = false -> ordinary x) -> good (dset d k x).
Proof.
  intros d k x H Hx k1 v Hk Hg. rewrite dget_dset in Hg. destruct (ueqb k1 k) eqn:E; [|exact (H k1 v Hk Hg)].
  apply ueqb_eq in E. subst k1. injection Hg as <-. exact (Hx Hk).
Qed.
Lemma near_one : forall d1 d2 k x, known c k = false -> near kn d1 d2 -> near kn (dset d1 k x) d2.
Proof.
  intros d1 d2 k x Hk H k1 H1. rewrite dget_dset. destruct (ueqb k1 k) eqn:E; [|exact (H k1 H1)]. apply ueqb_eq in E. subst k1. unfold kn in H1. congruence.
Qed.

Lemma fields_known : forall l d1 d2, near kn d1 d2 -> good d1 ->
  rnear kn (from_fields the_lib P d1 l) (from_fields the_lib P d2 (filter (fun kv => kn (fst kv)) l)) /\ good (fst (from_fields the_lib P d1 l)).
Proof.
  induction l as [|[k vs] l IH]; intros d1 d2 H G; cbn [filter from_fields fst].
  - split; [apply near_ret, H|exact G].
  - destruct (kn k) eqn:Ek.
    + cbn [from_fields]. destruct (fu_entry the_lib P k vs) as [x|e]; [|split; [apply near_ret, H|exact G]].
      apply IH; [apply near_dset, H|apply good_dset; [exact G|]]. unfold kn in Ek. congruence.
    + destruct (unknown_none k Ek) as [U1 U2]. assert (F : exists x, fu_entry the_lib P k vs = Ok x /\ ordinary x).
      { unfold fu_entry, spec_of. rewrite U1, U2, no_star. destruct vs as [|a [|b vs]]; eexists; (split; [reflexivity|]); split; try discriminate; intros; discriminate. }
      destruct F as (x & -> & Hx). apply IH; [apply near_one; assumption|apply good_dset; [exact G|intros _; exact Hx]].
Qed.
Lemma items_known : forall l d1 d2, near kn d1 d2 -> good d1 -> (forall k v, In (k, v) l -> known c k = false -> ordinary v) ->
  rnear kn (from_items the_lib P d1 l) (from_items the_lib P d2 (filter (fun kv => kn (fst kv)) l)) /\ good (fst (from_items the_lib P d1 l)).
Proof.
  induction l as [|[k v] l IH]; intros d1 d2 H G Hl; cbn [filter from_items fst].
  - split; [apply near_ret, H|exact G].
  - assert (Hl' : forall k v, In (k, v) l -> known c k = false -> ordinary v) by (intros a b Hab; apply Hl; right; exact Hab).
    destruct (kn k) eqn:Ek.
    + cbn [from_items]. destruct (fd_entry the_lib P k v) as [[x|]|e]; [| |split; [apply near_ret, H|exact G]].
      * apply IH; [apply near_dset, H|apply good_dset; [exact G|]|exact Hl']. unfold kn in Ek. congruence.
      * apply IH; assumption.
    + destruct (unknown_none k Ek) as [U1 U2]. unfold fd_entry. destruct (is_blank v); [apply IH; assumption|]. rewrite U1, U2, no_star.
      apply IH; [apply near_one; assumption|apply good_dset; [exact G|]|exact Hl']. intros _. apply (Hl k v); [left; reflexivity|exact Ek].
Qed.

Lemma add_unknown : forall d k v, known c k = false -> filter (fun kv : ustr * list ustr => kn (fst kv)) (Percent.qs_add d k v) = filter (fun kv => kn (fst kv)) d.
Proof.
  induction d as [|[k0 l0] d IH]; intros k v Hk; cbn [Percent.qs_add].
  - cbn [filter fst]. unfold kn. rewrite Hk. reflexivity.
  - destruct (ueqb k k0) eqn:E.
    + apply ueqb_eq in E. subst k0. cbn [filter fst]. unfold kn. rewrite Hk. reflexivity.
    + cbn [filter fst]. rewrite (IH k v Hk). reflexivity.
Qed.
Lemma group_unknown : forall l d, (forall k v, In (k, v) l -> known c k = false) ->
  filter (fun kv : ustr * list ustr => kn (fst kv)) (fold_left (fun d kv => Percent.qs_add d (fst kv) (snd kv)) l d) = filter (fun kv => kn (fst kv)) d.
Proof.
  induction l as [|[k v] l IH]; intros d H; [reflexivity|]. cbn [fold_left fst snd]. rewrite IH by (intros a b Hab; apply (H a b); right; exact Hab).
  apply add_unknown. apply (H k v). left. reflexivity.
Qed.
End Reading.

Lemma read_query : forall c t f, (exists k, gives t k) -> (forall k, gives f k -> known c k = false) ->
  let R := from_urlencoded (cdef c) (cd_default (cdef c)) in
  snd (R (t ++ 38 :: f)) = snd (R t) /\ agree_on (known c) (fst (R (t ++ 38 :: f))) (fst (R t)) /\
  NoDup (map fst (fst (R (t ++ 38 :: f)))) /\ NoDup (map fst (fst (R t))).
Proof.
  intros c t f [k0 Hk0] Hf R.
  assert (Q : filter (fun kv : ustr * list ustr => known c (fst kv)) (Percent.parse_qs (t ++ 38 :: f)) = filter (fun kv => known c (fst kv)) (Percent.parse_qs t)).
  { unfold Percent.parse_qs, Percent.qs_group. rewrite EncodeLemmas.parse_qsl_app, fold_left_app. apply group_unknown.
    intros k v Hin. apply Hf. apply parse_qs_gives. unfold Percent.parse_qs. apply PercentLemmas.qs_group_keys. apply (in_map fst) in Hin. exact Hin. }
  assert (Hne : forall q, gives q k0 -> from_urlencoded (cdef c) (cd_default (cdef c)) q = from_fields the_lib (cd_param (cdef c)) (cd_default (cdef c)) (Percent.parse_qs q)).
  { intros q Hq. unfold from_urlencoded, from_qs. destruct (Percent.parse_qs q) as [|x l] eqn:E; [|reflexivity].
    apply parse_qs_gives in Hq. rewrite E in Hq. destruct Hq. }
  assert (G2 : gives (t ++ 38 :: f) k0).
  { destruct Hk0 as (x & v & Hx & Hv). exists x, v. split; [|exact Hv]. rewrite EncodeLemmas.split_on_app_gen. apply in_or_app. left. exact Hx. }
  unfold R. rewrite (Hne _ Hk0), (Hne _ G2).
  destruct (fields_known c (Percent.parse_qs (t ++ 38 :: f)) (cd_default (cdef c)) (cd_default (cdef c)) (fun k _ => eq_refl) (defaults_good c)) as [[A1 A2] A3].
  destruct (fields_known c (Percent.parse_qs t) (cd_default (cdef c)) (cd_default (cdef c)) (fun k _ => eq_refl) (defaults_good c)) as [[B1 B2] B3].
  rewrite Q in A1, A2. split; [congruence|]. split; [|split; apply from_fields_nodup, lib_defaults_nodup]. split.
  - intros k Hk. rewrite (A1 k Hk), (B1 k Hk). reflexivity.
  - intros k v Hk [H|H]; [exact (A3 k v Hk H)|exact (B3 k v Hk H)].
Qed.
Lemma read_dict : forall c l1 l2, filter (fun kv : ustr * value => known c (fst kv)) l1 = filter (fun kv : ustr * value => known c (fst kv)) l2 ->
  (forall k v, In (k, v) l1 \/ In (k, v) l2 -> known c k = false -> ordinary v) ->
  let R := fun l => from_dict (cdef c) (cd_default (cdef c)) (VDict l) in
  snd (R l1) = snd (R l2) /\ agree_on (known c) (fst (R l1)) (fst (R l2)) /\ NoDup (map fst (fst (R l1))) /\ NoDup (map fst (fst (R l2))).
Proof.
  intros c l1 l2 Q Ho R. unfold R, from_dict, from_dict_gen. cbn [items].
  destruct (items_known c l1 (cd_default (cdef c)) (cd_default (cdef c)) (fun k _ => eq_refl) (defaults_good c)) as [[A1 A2] A3]; [intros; eapply Ho; eauto|].
  destruct (items_known c l2 (cd_default (cdef c)) (cd_default (cdef c)) (fun k _ => eq_refl) (defaults_good c)) as [[B1 B2] B3]; [intros; eapply Ho; eauto|].
  rewrite Q in A1, A2. split; [congruence|]. split; [|split; apply MessageLemmas.from_items_nodup, lib_defaults_nodup]. split.
  - intros k Hk. rewrite (A1 k Hk), (B1 k Hk). reflexivity.
  - intros k v Hk [H|H]; [exact (A3 k v Hk H)|exact (B3 k v Hk H)].
Qed.
Theorem received_query : forall E K hdr c t f, (exists k, gives t k) -> (forall k, gives f k -> known c k = false) ->
  (subclass c C_oidc_AuthorizationRequest = true -> json_payloads E) ->
  same_reception E K hdr c (from_urlencoded (cdef c) (cd_default (cdef c)) t) (from_urlencoded (cdef c) (cd_default (cdef c)) (t ++ 38 :: f)).
Proof.
  intros E K hdr c t f Ht Hf HE. destruct (read_query c t f Ht Hf) as (A & [B1 B2] & N1 & N2). split; [symmetry; exact A|].
  apply unknown; try assumption; [intros k Hk; exact Hk|]. split; [intros k Hk; symmetry; apply B1, Hk|]. intros k v Hk [H|H]; apply (B2 k v Hk); tauto.
Qed.
Theorem received_dict : forall E K hdr c l1 l2, filter (fun kv : ustr * value => known c (fst kv)) l1 = filter (fun kv : ustr * value => known c (fst kv)) l2 ->
  (forall k v, In (k, v) l1 \/ In (k, v) l2 -> known c k = false -> ordinary v) ->
  (subclass c C_oidc_AuthorizationRequest = true -> json_payloads E) ->
  same_reception E K hdr c (from_dict (cdef c) (cd_default (cdef c)) (VDict l1)) (from_dict (cdef c) (cd_default (cdef c)) (VDict l2)).
Proof.
  intros E K hdr c l1 l2 Q Ho HE. destruct (read_dict c l1 l2 Q Ho) as (A & B & N1 & N2). split; [exact A|].
  apply unknown; try assumption. intros k Hk; exact Hk.
Qed.
