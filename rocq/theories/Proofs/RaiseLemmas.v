(** The exceptions of verify(). *)
From Coq Require Import List NArith ZArith QArith Bool String Lia.
From Verif Require Import Base.Ustr Base.UstrLemmas Base.Percent Model.Cls Model.Value Model.Pspec Model.Tables Model.Message Model.Env Model.Verify
  Spec.MessageSpec Spec.VerifySpec Spec.ErrorSpec Spec.RaiseSpec
  Proofs.ValueLemmas Proofs.TypeLemmas Proofs.MessageLemmas Proofs.VerifyLemmas Proofs.TokenLemmas Proofs.ErrorLemmas Proofs.ResponseLemmas.
Import ListNotations.
Open Scope list_scope.
Open Scope N_scope.

Definition SA : list exn :=
  [EOidcMsgError; EMessageException; EMissingAttribute; ENotForMe; EIssuerMismatch; EFormatError; EVerificationError; EMissingRequiredValue;
   EMissingSigningKey; ETooManyValues; EDecodeError; ESchemeError; ENotAllowedValue; EMissingRequiredAttribute; EInvalidRequest;
   EAtHashError; ECHashError; EEXPError; EIATError; EValueError; EJSONDecodeError; OutOfModel].
Ltac sa := apply within_err; cbn [In SA]; tauto.

Lemma base_raises : forall C d, within SA (verify_base C d).
Proof.
  intros C d. unfold verify_base. apply within_bind; [|intros; apply within_ok]. apply within_mapM. intros [k s] _. cbn [fst snd].
  unfold verify_param. destruct (ueqb k (u "*")); [apply within_ok|]. destruct (dget d k) as [v|]; [|destruct (p_req s); [sa|apply within_ok]].
  destruct (match p_typ s with TBool => false | _ => negb (truthy v) end); [destruct (p_req s); [sa|apply within_ok]|].
  destruct (dget (cd_allowed C) k); [|apply within_ok]. destruct (type_check _ _ _ _); [apply within_ok|sa].
Qed.
Lemma raise_if_within : forall b e, In e SA -> within SA (raise_if b e).
Proof. intros [] e H; [apply within_err, H|apply within_ok]. Qed.
Ltac ri := apply raise_if_within; cbn [In SA]; tauto.

Notation is_texts := (has_form Texts).
Notation is_number := (has_form Number).
Notation is_object := (has_form Object).
Definition ok (L : list (ustr * vform)) (d : dict value) : Prop := forall k f v, In (k, f) L -> dget d k = Some v -> has_form f v.
Lemma ok_incl : forall L L' d, ok L d -> incl L' L -> ok L' d. Proof. intros L L' d H I k f v Hi. apply H, I, Hi. Qed.
Lemma ok_get : forall L d k f v, ok L d -> dget d k = Some v -> In (k, f) L -> has_form f v. Proof. intros L d k f v H Hv Hi. exact (H k f v Hi Hv). Qed.
Definition L_resp : list (ustr * vform) := [(u "error_description", Texts)].
Definition L_schema : list (ustr * vform) := [(u "error_description", Texts); (u "birthdate", Text)].
Definition L_id : list (ustr * vform) := [(u "error_description", Texts); (u "birthdate", Text); (u "aud", Texts); (u "azp", Text); (u "exp", Number); (u "iat", Number)].
Definition L_jwt : list (ustr * vform) := [(u "exp", Number); (u "iat", Number); (u "nbf", Number); (u "aud", Texts)].
Definition L_logout : list (ustr * vform) := [(u "events", Object); (u "aud", Texts); (u "iat", Number)].
Definition L_authz : list (ustr * vform) := [(u "error_description", Texts); (u "aud", Texts)].
Definition L_request : list (ustr * vform) := [(u "response_type", Texts); (u "scope", Texts); (u "prompt", Texts)].
Definition L_registration : list (ustr * vform) := [(u "initiate_login_uri", Text)].
Definition L_provider : list (ustr * vform) := [(u "error_description", Texts); (u "issuer", Text); (u "scopes_supported", Texts); (u "response_types_supported", Texts);
      (u "id_token_signing_alg_values_supported", Texts)].
Ltac ex H := match goal with Hv : dget _ _ = Some ?v |- has_form ?f ?v => refine (ok_get _ _ _ f v H Hv _); cbn [In L_resp L_schema L_id L_jwt L_logout L_request L_registration L_provider L_authz]; tauto
  | Hv : dget _ _ = Some ?v |- is_text ?v => refine (ok_get _ _ _ Text v H Hv _); cbn [In L_resp L_schema L_id L_jwt L_logout L_request L_registration L_provider L_authz]; tauto end.
Ltac sub H := refine (ok_incl _ _ _ H _); intros x Hx; cbn [In L_resp L_schema L_id L_authz L_provider] in *; tauto.
Lemma texts_iter : forall v, is_texts v -> exists l, py_iter v = Ok (map VStr l).
Proof.
  intros v [[s ->]|[l ->]]; [|exists l; reflexivity]. exists (map (fun c => [c]) s). cbn [py_iter]. rewrite map_map. reflexivity.
Qed.
Lemma texts_in : forall s v, is_texts v -> exists b, py_in (VStr s) v = Ok b.
Proof. intros s v [[t ->]|[l ->]]; cbn [py_in]; eauto. Qed.
Lemma texts_len : forall v, is_texts v -> exists n, py_len v = Ok n.
Proof. intros v [[t ->]|[l ->]]; cbn [py_len]; eauto. Qed.
Lemma chars_fine : forall l, exists b, all_error_chars (map VStr l) = Ok b.
Proof.
  induction l as [|s l [b IH]]; [exists true; reflexivity|]. cbn [map all_error_chars hashable].
  destruct s as [|c [|c' s]]; eauto. destruct (error_char c); eauto.
Qed.
Lemma op_fine : forall op a b, within SA (flt_op op a b) /\ forall x, flt_op op a b = Ok x -> is_number x.
Proof.
  intros op a b. split; [|intros x H; destruct (flt_op_num _ _ _ _ H) as [q Hq]; exists q; exact Hq].
  unfold flt_op. destruct (flt_of a); [|sa]. destruct (flt_of b); [|sa]. destruct (Float.round_flt _); [apply within_ok|sa].
Qed.
Lemma whole_fine : forall z, within SA (Ok (VInt z)) /\ forall x, Ok (VInt z) = Ok x -> is_number x.
Proof. intro z. split; [apply within_ok|]. intros x H. assert (x = VInt z) as -> by congruence. eexists. reflexivity. Qed.
Lemma sub_fine : forall a b, is_number a -> is_number b -> within SA (py_sub a b) /\ forall x, py_sub a b = Ok x -> is_number x.
Proof. intros a b [p Hp] [q Hq]. unfold py_sub. destruct (int_of a), (int_of b); rewrite ?Hp, ?Hq; first [apply whole_fine|apply op_fine]. Qed.
Lemma add_fine : forall a b, is_number a -> is_number b -> within SA (py_add a b) /\ forall x, py_add a b = Ok x -> is_number x.
Proof. intros a b [p Hp] [q Hq]. unfold py_add. destruct (int_of a), (int_of b); rewrite ?Hp, ?Hq; first [apply whole_fine|apply op_fine]. Qed.
Lemma lt_fine : forall a b, is_number a -> is_number b -> exists x, py_lt a b = Ok x.
Proof. intros a b [p Hp] [q Hq]. unfold py_lt. rewrite Hp, Hq. eauto. Qed.
Lemma now_number : forall E, is_number (VInt (e_now E)). Proof. intro E. eexists. reflexivity. Qed.
Lemma int_number : forall z, is_number (VInt z). Proof. intro z. eexists. reflexivity. Qed.
Lemma skew_number : forall K k z, usual_args K -> In k [u "skew"; u "nonce_storage_time"] -> is_number (karg K k (VInt z)).
Proof. intros K k z (H & _) Hk. unfold karg. destruct (kget K k) as [v|] eqn:Ek; [exact (H k v Hk Ek)|apply int_number]. Qed.

Lemma response_raises : forall C d, ok L_resp d -> within SA (response_verify C d).
Proof.
  intros C d H. unfold response_verify. apply within_bind; [apply base_raises|]. intros _ _.
  destruct (dget d (u "error_description")) as [v|] eqn:E; [|apply within_ok].
  assert (T : is_texts v) by ex H. destruct (texts_iter v T) as [l ->]. cbn [bind]. destruct (chars_fine l) as [b ->]. cbn [bind].
  destruct b; [apply within_ok|sa].
Qed.
Lemma authz_response_raises : forall K C d, ok L_resp d -> within SA (authz_response_verify K C d).
Proof.
  intros K C d H. unfold authz_response_verify. apply within_bind; [apply response_raises; sub H|]. intros _ _.
  apply within_bind; [|intros _ _; apply within_bind; [|intros; apply within_ok]].
  - destruct (dget d (u "client_id")), (kget K (u "client_id")); try apply within_ok. destruct (py_ne _ _); [sa|apply within_ok].
  - destruct (dget d (u "iss")), (kget K (u "iss")); try apply within_ok. destruct (py_ne _ _); [sa|apply within_ok].
Qed.
Lemma schema_raises : forall C d, ok L_schema d -> within SA (schema_verify C d).
Proof.
  intros C d H. unfold schema_verify. apply within_bind; [apply response_raises; sub H|]. intros _ _. apply within_bind; [|intros; apply within_ok].
  destruct (dget d (u "birthdate")) as [v|] eqn:E; [|apply within_ok]. assert (T : is_text v) by ex H. destruct T as [s ->].
  unfold birthdate_check. destruct (forallb is_ascii s); [destruct (_ || _); [apply within_ok|sa]|sa].
Qed.
Lemma aud_raises : forall K d, ok L_id d -> usual_args K -> within SA (idtoken_aud K d).
Proof.
  intros K d H U. unfold idtoken_aud. destruct (dget d (u "aud")) as [v|] eqn:E; [|apply within_ok]. assert (T : is_texts v) by ex H.
  apply within_bind.
  - destruct (kget K (u "client_id")) as [c|] eqn:Ek; [|apply within_ok]. destruct U as (_ & U & _).
    destruct (U (u "client_id") c) as [s ->]; [cbn [In]; tauto|exact Ek|]. unfold not_in. destruct (texts_in s v T) as [b ->]. cbn [bind]. ri.
  - intros _ _. destruct (texts_len v T) as [n ->]. cbn [bind]. destruct (1 <? n); [|apply within_ok].
    destruct (dget d (u "azp")) as [a|] eqn:Ea; [|sa]. assert (Z : is_text a) by ex H. destruct Z as [s ->].
    unfold not_in. destruct (texts_in s v T) as [b ->]. cbn [bind]. ri.
Qed.
Lemma cmp_raises : forall (f : value -> value -> res value) (g : value -> value -> res bool) a b c e,
  (forall a b, is_number a -> is_number b -> within SA (f a b) /\ forall x, f a b = Ok x -> is_number x) ->
  (forall a b, is_number a -> is_number b -> exists x, g a b = Ok x) ->
  is_number a -> is_number b -> is_number c -> In e SA -> within SA (do x <- f a b ; do y <- g x c ; raise_if y e).
Proof.
  intros f g a b c e F G Ha Hb Hc He. destruct (F a b Ha Hb) as [F1 F2]. apply within_bind; [exact F1|]. intros x Hx.
  destruct (G x c (F2 x Hx) Hc) as [y ->]. cbn [bind]. apply raise_if_within, He.
Qed.
Lemma gt_fine : forall a b, is_number a -> is_number b -> exists x, py_gt a b = Ok x.
Proof. intros a b Ha Hb. apply lt_fine; assumption. Qed.
Lemma gt_fine' : forall a b, is_number a -> is_number b -> exists x, py_gt b a = Ok x.
Proof. intros a b Ha Hb. apply lt_fine; assumption. Qed.
Lemma times_raises : forall E K d, ok L_id d -> usual_args K -> within SA (idtoken_times E K d).
Proof.
  intros E K d H U. unfold idtoken_times. cbv zeta. apply within_bind.
  - destruct (dget d (u "exp")) as [v|] eqn:Ev; [|sa]. apply (cmp_raises py_sub py_gt); auto using sub_fine, gt_fine, now_number.
    + apply skew_number; [exact U|cbn [In]; tauto].
    + ex H.
    + cbn [In SA]; tauto.
  - intros _ _. destruct (dget d (u "iat")) as [v|] eqn:Ev; [|sa]. assert (N1 : is_number v) by ex H.
    destruct (add_fine v (karg K (u "nonce_storage_time") (VInt nonce_storage_time)) N1) as [A1 A2]; [apply skew_number; [exact U|cbn [In]; tauto]|].
    apply within_bind; [exact A1|]. intros x Hx.
    destruct (sub_fine (VInt (e_now E)) (karg K (u "skew") (VInt 0)) (now_number E)) as [B1 B2]; [apply skew_number; [exact U|cbn [In]; tauto]|].
    apply within_bind; [exact B1|]. intros y Hy. destruct (lt_fine x y (A2 x Hx) (B2 y Hy)) as [b ->]. cbn [bind]. ri.
Qed.
Lemma idtoken_raises : forall E K C d, ok L_id d -> usual_args K -> within SA (idtoken_verify E K C d).
Proof.
  intros E K C d H U. unfold idtoken_verify. apply within_bind; [apply schema_raises; sub H|]. intros _ _.
  apply within_bind; [destruct (kget K (u "iss")), (dget d (u "iss")); try apply within_ok; ri|]. intros _ _.
  apply within_bind; [apply aud_raises; assumption|]. intros _ _.
  apply within_bind; [destruct (dget d (u "azp")), (kget K (u "client_id")); try apply within_ok; ri|]. intros _ _.
  apply within_bind; [apply times_raises; assumption|]. intros _ _.
  apply within_bind; [destruct (kget K (u "nonce")), (dget d (u "nonce")); try apply within_ok; ri|]. intros _ _. apply within_ok.
Qed.
Lemma jwt_raises : forall E K C d, ok L_jwt d -> usual_args K -> within SA (jwt_verify E K C d).
Proof.
  intros E K C d H U. unfold jwt_verify. apply within_bind; [apply base_raises|]. intros _ _. cbv zeta.
  assert (S : is_number (karg K (u "skew") (VInt 0))) by (apply skew_number; [exact U|cbn [In]; tauto]).
  apply within_bind.
  { destruct (dget d (u "exp")) as [v|] eqn:Ev; [|apply within_ok]. apply (cmp_raises py_sub py_gt); auto using sub_fine, gt_fine, now_number; [ex H|cbn [In SA]; tauto]. }
  intros _ _. apply within_bind.
  { destruct (dget d (u "iat")) as [v|] eqn:Ev; [|apply within_ok].
    apply (cmp_raises py_add (fun x y => py_gt y x)); auto using add_fine, gt_fine', now_number; [ex H|cbn [In SA]; tauto]. }
  intros _ _. apply within_bind.
  { destruct (dget d (u "nbf")) as [v|] eqn:Ev; [|apply within_ok].
    apply (cmp_raises py_sub (fun x y => py_gt y x)); auto using sub_fine, gt_fine', now_number; [ex H|cbn [In SA]; tauto]. }
  intros _ _. apply within_bind.
  { destruct (dget d (u "aud")) as [v|] eqn:Ev; [|apply within_ok]. destruct (kget K (u "aud")) as [a|] eqn:Ek; [|apply within_ok].
    assert (T : is_texts v) by ex H. destruct U as (_ & U & _). destruct (U (u "aud") a) as [s ->]; [cbn [In]; tauto|exact Ek|].
    unfold not_in. destruct (texts_in s v T) as [b ->]. cbn [bind]. ri. }
  intros _ _. apply within_bind; [destruct (kget K (u "iss")), (dget d (u "iss")); try apply within_ok; ri|]. intros _ _. apply within_ok.
Qed.
Lemma required_there : forall c d k b, verify_base (cdef c) d = Ok b ->
  existsb (fun ks : ustr * pspec => ueqb (fst ks) k && p_req (snd ks) && negb (ueqb k (u "*"))) (cd_param (cdef c)) = true -> exists v, dget d k = Some v.
Proof.
  intros c d k b H R. apply existsb_exists in R. destruct R as ([k' s] & Hin & R). cbn [fst snd] in R.
  apply andb_true_iff in R. destruct R as [R R3]. apply andb_true_iff in R. destruct R as [R1 R2]. apply ueqb_eq in R1. subst k'.
  apply negb_true_iff in R3. unfold verify_base in H. destruct (mapM _ _) as [l|e] eqn:Em; [|discriminate].
  destruct (proj1 (mapM_ok_iff _ _ _ _) (ex_intro _ l Em) (k, s) Hin) as (y & Hy). cbn [fst snd] in Hy. unfold verify_param in Hy.
  rewrite R3 in Hy. destruct (dget d k) as [v|]; [eauto|]. rewrite R2 in Hy. discriminate.
Qed.

Definition requires (c : cls) (k : ustr) : bool :=
  existsb (fun ks : ustr * pspec => ueqb (fst ks) k && p_req (snd ks) && negb (ueqb k (u "*"))) (cd_param (cdef c)).
Lemma kind_requires : forall c, match vkind_of c with
  | KOidcAuthzRequest => requires c (u "client_id")
  | KProvider => requires c (u "issuer") && requires c (u "id_token_signing_alg_values_supported") && requires c (u "response_types_supported")
  | KLogoutToken => requires c (u "events")
  | KBackChannel => requires c (u "logout_token")
  | _ => true
  end = true.
Proof. intro c. destruct c; vm_compute; reflexivity. Qed.

Lemma get_texts : forall L d k, ok L d -> In (k, Texts) L -> is_texts (get d k (VList [])).
Proof. intros L d k H Hi. unfold get. destruct (dget d k) as [v|] eqn:E; [exact (H k _ v Hi E)|right; exists []; reflexivity]. Qed.
Lemma rules_raises : forall K d, ok L_request d -> within SA (request_rules K d).
Proof.
  intros K d H. unfold request_rules. destruct (dget d (u "response_type")) as [rt|] eqn:Er; [|sa].
  assert (T : is_texts rt) by ex H. destruct (texts_in (u "id_token") rt T) as [b ->]. cbn [bind].
  apply within_bind.
  { destruct b; [|apply within_ok]. destruct (dget d (u "nonce")); [|sa]. destruct (kget K (u "nonce")); [ri|apply within_ok]. }
  intros _ _. cbv zeta. assert (S : is_texts (get d (u "scope") (VList []))) by (apply (get_texts L_request); [exact H|cbn [In L_request]; tauto]).
  destruct (texts_in (u "openid") _ S) as [b1 ->]. cbn [bind]. apply within_bind; [ri|]. intros _ _.
  destruct (texts_in (u "offline_access") _ S) as [b2 ->]. cbn [bind].
  apply within_bind.
  { destruct b2; [|apply within_ok]. destruct (dget d (u "prompt")) as [p|] eqn:Ep; [|sa]. assert (P : is_texts p) by ex H.
    destruct (texts_in (u "consent") p P) as [b3 ->]. cbn [bind]. ri. }
  intros _ _. apply within_bind; [|intros; apply within_ok]. destruct (dget d (u "prompt")) as [p|] eqn:Ep; [|apply within_ok].
  assert (P : is_texts p) by ex H. destruct (texts_in (u "none") p P) as [b3 ->]. cbn [bind]. destruct b3; [|apply within_ok].
  destruct (texts_len p P) as [n ->]. cbn [bind]. ri.
Qed.
Lemma charset_raises : forall l, within SA (mapM (fun s => check_char_set_v s scope_charset) (map VStr l)).
Proof.
  intro l. apply within_mapM. intros x Hx. apply in_map_iff in Hx. destruct Hx as (s & <- & _). cbn [check_char_set_v]. unfold check_char_set.
  destruct (forallb _ s); [apply within_ok|sa].
Qed.
Lemma any_code_fine : forall l, exists b, any_code (map VStr l) = Ok b.
Proof. induction l as [|s l [b IH]]; [exists false; reflexivity|]. cbn [map any_code py_in bind]. destruct (substr (u "code") s); eauto. Qed.
Lemma provider_raises : forall E K c d, vkind_of c = KProvider -> ok L_provider d -> openid_supported c d -> within SA (provider_verify E K (cdef c) d).
Proof.
  intros E K c d Hk H O. pose proof (kind_requires c) as R.
  assert (Hp : subclass c C_oidc_ProviderConfigurationResponse = true) by (clear - Hk; destruct c; first [reflexivity|exfalso; vm_compute in Hk; discriminate]). rewrite Hk in R. apply andb_true_iff in R. destruct R as [R R3]. apply andb_true_iff in R. destruct R as [R1 R2].
  unfold provider_verify. apply within_bind; [apply response_raises; sub H|]. intros b Hb.
  assert (B : exists b', verify_base (cdef c) d = Ok b'). { unfold response_verify in Hb. destruct (verify_base (cdef c) d); [eauto|discriminate]. }
  destruct B as [b' B].
  destruct (required_there _ _ _ _ B R1) as [iss I1]. destruct (required_there _ _ _ _ B R2) as [algs I2]. destruct (required_there _ _ _ _ B R3) as [rts I3].
  apply within_bind.
  { destruct (dget d (u "scopes_supported")) as [v|] eqn:Ev; [|apply within_ok]. rewrite (O v Hp Ev). cbn [bind negb raise_if].
    assert (T : is_texts v) by ex H. destruct (texts_iter v T) as [l ->]. cbn [bind]. apply within_bind; [apply charset_raises|intros; apply within_ok]. }
  intros _ _. unfold getitem. rewrite I1, I2, I3. cbn [bind].
  assert (T : is_text iss) by ex H. destruct T as [s ->].
  apply within_bind.
  { unfold urlparse. destruct (url_split_scheme _) as [sc r]. cbv zeta.
    destruct (match match r with 47 :: 47 :: t => Some _ | _ => None end with Some _ => _ | None => true end); [|sa].
    destruct (partition1 35 _) as [[r2 f2] fr]. destruct (partition1 63 r2) as [[a1 a2] a3]. apply within_ok. }
  intros parts _. apply within_bind; [destruct (khas K (u "allow_http")); [apply within_ok|ri]|]. intros _ _.
  assert (T2 : is_texts algs) by ex H. destruct (texts_in (u "RS256") algs T2) as [b2 ->]. cbn [bind]. apply within_bind; [ri|]. intros _ _.
  apply within_bind; [ri|]. intros _ _. assert (T3 : is_texts rts) by ex H. destruct (texts_iter rts T3) as [l ->]. cbn [bind].
  destruct (any_code_fine l) as [b3 ->]. cbn [bind]. destruct (b3 && _); [sa|apply within_ok].
Qed.
Lemma logout_raises : forall E K c hdr d, vkind_of c = KLogoutToken -> ok L_logout d -> usual_args K -> within SA (logout_token_verify E K (cdef c) hdr d).
Proof.
  intros E K c hdr d Hk H U. pose proof (kind_requires c) as R. rewrite Hk in R.
  unfold logout_token_verify. apply within_bind; [apply base_raises|]. intros b B. destruct (required_there _ _ _ _ B R) as [ev I1].
  apply within_bind; [ri|]. intros _ _. unfold getitem. rewrite I1. cbn [bind]. assert (T : is_object ev) by ex H. destruct T as [l ->].
  apply within_bind.
  { cbn [events_check]. destruct l as [|[k x] [|y l]]; try sa. destruct (ueqb k logout_event); [ri|sa]. }
  intros _ _. apply within_bind; [ri|]. intros _ _. pose proof U as U0. destruct U0 as (_ & U1 & U2).
  apply within_bind.
  { destruct (kget K (u "aud")) as [a|] eqn:Ea; [|apply within_ok]. destruct (dget d (u "aud")) as [v|] eqn:Ev; [|apply within_ok].
    assert (T : is_texts v) by ex H. destruct (U1 (u "aud") a) as [s ->]; [cbn [In]; tauto|exact Ea|].
    unfold not_in. destruct (texts_in s v T) as [b1 ->]. cbn [bind]. ri. }
  intros _ _. apply within_bind; [destruct (kget K (u "iss")), (dget d (u "iss")); try apply within_ok; ri|]. intros _ _.
  apply within_bind.
  { destruct (dget d (u "iat")) as [v|] eqn:Ev; [|apply within_ok].
    apply (cmp_raises py_add (fun x y => py_gt y x)); auto using add_fine, gt_fine', now_number; [apply skew_number; [exact U|cbn [In]; tauto]|ex H|cbn [In SA]; tauto]. }
  intros _ _. rewrite U2. apply within_ok.
Qed.
Lemma enc_set : forall d k, In k [u "request_object_encryption_enc"; u "id_token_encrypted_response_enc"; u "userinfo_encrypted_response_enc"] ->
  setitem (cdef C_oidc_RegistrationRequest) d k (VStr (u "A128CBC-HS256")) = (dset d k (VStr (u "A128CBC-HS256")), Ok tt).
Proof.
  intros d k H. assert (R : match dget (cd_param (cdef C_oidc_RegistrationRequest)) k with
    | Some s => add_val the_lib s (VStr (u "A128CBC-HS256")) | None => Err OutOfFuel end = Ok (Some (VStr (u "A128CBC-HS256")))).
  { cbn [In] in H. destruct H as [<-|[<-|[<-|[]]]]; vm_compute; reflexivity. }
  unfold setitem. destruct (dget (cd_param (cdef C_oidc_RegistrationRequest)) k) as [s|]; [|discriminate]. rewrite R. reflexivity.
Qed.
Lemma enc_raises : forall p d, In (p ++ u "_enc") [u "request_object_encryption_enc"; u "id_token_encrypted_response_enc"; u "userinfo_encrypted_response_enc"] ->
  within SA (snd (enc_default (cdef C_oidc_RegistrationRequest) p d)).
Proof.
  intros p d H. unfold enc_default. cbv zeta.
  assert (X : forall d1 : dict value, within SA (snd (if dhas d1 (p ++ u "_enc") && negb (dhas d1 (p ++ u "_alg")) then (d1, Err EMissingRequiredAttribute) else (d1, @Ok unit tt)))).
  { intro d1. destruct (dhas d1 (p ++ u "_enc") && negb (dhas d1 (p ++ u "_alg"))); cbn [snd]; [sa|apply within_ok]. }
  destruct (dhas d (p ++ u "_alg") && negb (dhas d (p ++ u "_enc"))); [rewrite enc_set by exact H|]; cbn [andthen]; apply X.
Qed.
Lemma within_andthen : forall S A B C (r : A * res B) (f : A -> B -> A * res C), within S (snd r) -> (forall a b, r = (a, Ok b) -> within S (snd (f a b))) ->
  within S (snd (andthen r f)).
Proof. intros S A B C [a [b|e]] f H H1; cbn [andthen]; [apply H1; reflexivity|]. cbn [snd] in *. intros e' E. apply H. congruence. Qed.
Lemma within_checked : forall S A (r : res A) d f, within S r -> (forall a, r = Ok a -> within S (snd (f d))) -> within S (snd (checked r d f)).
Proof. intros S A [a|e] d f H H1; cbn [checked]; [eapply H1; reflexivity|]. cbn [snd]. intros e' E. apply H. congruence. Qed.
Lemma registration_raises : forall d, ok L_registration d -> within SA (snd (registration_verify (cdef C_oidc_RegistrationRequest) d)).
Proof.
  intros d H. unfold registration_verify. apply within_checked; [apply base_raises|]. intros _ _. apply within_checked.
  { destruct (dget d (u "initiate_login_uri")) as [v|] eqn:Ev; [|apply within_ok]. assert (T : is_text v) by ex H. destruct T as [s ->]. ri. }
  intros _ _. do 3 (apply within_andthen; [apply enc_raises; cbn; tauto|intros ? ? _]). cbn [snd].
  destruct (dget _ _); [|apply within_ok]. destruct (py_eq _ _); [sa|apply within_ok].
Qed.

Lemma clear_ok : forall L d, ok L d -> ok L (clear_verified d).
Proof. intros L d H k f v Hi Hv. rewrite dget_clear in Hv. destruct (_ || _); [discriminate|]. exact (H k f v Hi Hv). Qed.
(** the list by kind, and that of the specification *)
Definition class_list (c : cls) : list (ustr * vform) :=
  match vkind_of c with
  | KResponse | KAuthzResponse | KTokenResponse | KRegistrationResponse => L_resp
  | KWithIdToken => if subclass c C_oauth2_ResponseMessage then L_resp else []
  | KOidcAuthzResponse => L_authz
  | KOidcAuthzRequest => L_request
  | KSchema => L_schema
  | KRegistration => L_registration
  | KIdToken => L_id
  | KProvider => L_provider
  | KJwt => L_jwt
  | KLogoutToken => L_logout
  | _ => []
  end.
Definition form_eqb (a b : vform) : bool := match a, b with Text, Text | Texts, Texts | Number, Number | Object, Object => true | _, _ => false end.
Lemma form_eqb_eq : forall a b, form_eqb a b = true -> a = b. Proof. intros [] []; cbn; congruence. Qed.
Definition looks (c : cls) (kf : ustr * vform) : bool :=
  existsb (fun bl : cls * list (ustr * vform) => subclass c (fst bl) && existsb (fun x => ueqb (fst x) (fst kf) && form_eqb (snd x) (snd kf)) (snd bl)) looks_into.
Lemma class_looks : forall c, forallb (looks c) (class_list c) = true.
Proof. intro c. destruct c; vm_compute; reflexivity. Qed.
Lemma expected_ok : forall c d, as_expected c d -> ok (class_list c) d.
Proof.
  intros c d H k f v Hi Hv. pose proof (class_looks c) as L. rewrite forallb_forall in L. specialize (L (k, f) Hi). unfold looks in L.
  apply existsb_exists in L. destruct L as ([b l] & Hb & L). cbn [fst snd] in L. apply andb_true_iff in L. destruct L as [L1 L2].
  apply existsb_exists in L2. destruct L2 as ([k' f'] & Hl & L2). cbn [fst snd] in L2. apply andb_true_iff in L2. destruct L2 as [L2 L3].
  apply ueqb_eq in L2. apply form_eqb_eq in L3. subst. exact (H b l k f v Hb L1 Hl Hv).
Qed.
Lemma clear_tokenless : forall d, tokenless d -> tokenless (clear_verified d).
Proof. intros d H k Hk. rewrite dget_clear. destruct (_ || _); [reflexivity|]. exact (H k Hk). Qed.
Lemma no_id_token : forall E K C b d, tokenless d -> with_id_token E K C b d = (d, Ok true).
Proof. intros E K C b d H. unfold with_id_token, dhas. rewrite (H (u "id_token")) by (cbn [In]; tauto). reflexivity. Qed.

Theorem verify_raises : forall E K hdr c d, assurance c = false -> usual_args K -> as_expected c d -> openid_supported c d -> tokenless d ->
  within SA (snd (verify E K hdr c d)).
Proof.
  intros E K hdr c d Ha U H0 O T. pose proof (expected_ok c d H0) as H. unfold class_list in H. unfold verify, pure. cbv zeta. pose proof (kind_requires c) as R.
  assert (As : match vkind_of c with KEvidence | KVerificationRequest | KVerifiedClaimsRequest | KIdaClaims => assurance c | _ => false end = false).
  { destruct (vkind_of c); try reflexivity; exact Ha. }
  assert (As' : match vkind_of c with KEvidence | KVerificationRequest | KVerifiedClaimsRequest | KIdaClaims => assurance c | _ => true end = true).
  { clear. destruct c; vm_compute; reflexivity. }
  assert (Kr : vkind_of c = KRegistration -> c = C_oidc_RegistrationRequest).
  { clear. intro H. destruct c; first [reflexivity|exfalso; vm_compute in H; discriminate]. }
  pose proof (clear_tokenless d T) as T'.
  destruct (vkind_of c) eqn:Ek; try congruence; pose proof (clear_ok _ _ H) as H'.
  - apply base_raises.
  - apply response_raises, H.
  - apply authz_response_raises, H.
  - unfold jar_verify. rewrite (T (u "request")) by (cbn [In]; tauto). destruct (dhas d (u "request_uri")); cbn [snd]; [apply within_ok|sa].
  - unfold par_verify. rewrite (T (u "request")) by (cbn [In]; tauto). apply within_ok.
  - unfold oidc_token_response_verify. apply within_checked; [apply response_raises; sub H|]. intros _ _. rewrite no_id_token by exact T'. apply within_ok.
  - unfold oidc_authz_response_verify. apply within_checked; [apply authz_response_raises; sub H|]. intros _ _. cbv zeta. rewrite no_id_token by exact T'.
    destruct (dget (clear_verified d) (u "aud")) as [v|] eqn:Ev; [|apply within_ok]. destruct (kget K (u "client_id")) as [k|] eqn:Eq; [|apply within_ok].
    assert (X : is_texts v) by ex H'. destruct U as (_ & U & _). destruct (U (u "client_id") k) as [s ->]; [cbn [In]; tauto|exact Eq|].
    unfold not_in. destruct (texts_in s v X) as [b ->]. cbn [bind]. destruct (negb b); apply within_ok.
  - unfold oidc_authz_request_verify. apply within_checked; [apply base_raises|]. intros b B. cbv zeta.
    destruct (required_there _ _ _ _ B R) as [cl Cl].
    assert (A : exists args, authz_args K (clear_verified d) = Ok args).
    { unfold authz_args. destruct (khas K (u "opponent_id")); [eauto|]. rewrite dget_clear. change (ueqb (u "client_id") slot_id_token || _ || _) with false. rewrite Cl. eauto. }
    destruct A as [args ->]. unfold request_step. rewrite (T' (u "request")) by (cbn [In]; tauto). cbn [andthen]. unfold hint_step.
    rewrite (T' (u "id_token_hint")) by (cbn [In]; tauto). cbn [andthen snd]. apply rules_raises, H'.
  - apply schema_raises, H.
  - rewrite (Kr eq_refl). apply registration_raises, H.
  - unfold registration_response_verify. apply within_bind; [apply response_raises; sub H|]. intros _ _. destruct (xorb _ _); [sa|apply within_ok].
  - apply idtoken_raises; assumption.
  - unfold mwit_verify. apply within_checked; [unfold mwit_super; destruct (subclass c C_oauth2_ResponseMessage); [apply response_raises, H|apply base_raises]|]. intros _ _. rewrite no_id_token by exact T. apply within_ok.
  - apply provider_raises; assumption.
  - apply jwt_raises; assumption.
  - unfold end_session_verify. apply within_checked; [apply base_raises|]. intros _ _. cbv zeta. rewrite (T' (u "id_token_hint")) by (cbn [In]; tauto). apply within_ok.
  - apply logout_raises; assumption.
  - unfold backchannel_verify. apply within_checked; [apply base_raises|]. intros b B. destruct (required_there _ _ _ _ B R) as [v Hv].
    rewrite (T (u "logout_token")) in Hv by (cbn [In]; tauto). discriminate.
  - unfold device_verify. apply within_bind; [apply base_raises|]. intros _ _. apply within_bind; [|intros; apply within_ok].
    destruct (dhas d (u "device_code")); [|apply within_ok]. apply within_bind; [ri|]. intros _ _. ri.
Qed.
Theorem c129 : forall E K hdr c d d' e, assurance c = false -> usual_args K -> as_expected c d -> openid_supported c d -> tokenless d ->
  verify E K hdr c d = (d', Err e) -> anticipated e \/ e = OutOfModel.
Proof.
  intros E K hdr c d d' e Ha U H O T V. pose proof (verify_raises E K hdr c d Ha U H O T e) as W. rewrite V in W. specialize (W eq_refl).
  unfold anticipated. cbn [In SA] in *. assert (X : OutOfModel = e -> e = OutOfModel) by congruence. tauto.
Qed.

(** messages that came as query strings *)
Lemma fields_form : forall L P k (Q : value -> Prop), (forall vals x, fu_entry L P k vals = Ok x -> Q x) ->
  forall l d, (forall v, dget d k = Some v -> Q v) -> forall v, dget (fst (from_fields L P d l)) k = Some v -> Q v.
Proof.
  intros L P k Q F. induction l as [|[k' vals] l IH]; intros d Hd v Hv; [apply Hd, Hv|]. cbn [from_fields] in Hv.
  destruct (fu_entry L P k' vals) as [x|e] eqn:E; [|apply Hd, Hv]. apply (IH (dset d k' x)); [|exact Hv].
  intros w Hw. rewrite dget_dset in Hw. destruct (ueqb k k') eqn:Ek; [|apply Hd, Hw]. apply ueqb_eq in Ek. subst k'.
  injection Hw as <-. exact (F vals x E).
Qed.
Definition query_form (c : cls) (kf : ustr * vform) : bool :=
  negb (dhas (cd_default (cdef c)) (fst kf)) &&
  match spec_of (cd_param (cdef c)) (fst kf) with
  | None => form_eqb (snd kf) Texts
  | Some s => match p_typ s, p_deser s with
              | TStr, None => form_eqb (snd kf) Texts || form_eqb (snd kf) Text
              | TList TStr, Some DeList | TList TStr, Some DeSpSep => form_eqb (snd kf) Texts
              | _, _ => false
              end
  end.
Lemma query_forms : forall c, comes_in_token c = false ->
  forallb (fun bl : cls * list (ustr * vform) => negb (subclass c (fst bl)) || forallb (query_form c) (snd bl)) looks_into = true.
Proof. intros c H. destruct c; first [vm_compute; reflexivity|exfalso; vm_compute in H; discriminate]. Qed.
Lemma query_expected : forall c q d, comes_in_token c = false -> from_urlencoded (cdef c) (cd_default (cdef c)) q = (d, Ok tt) -> as_expected c d.
Proof.
  intros c q d Hc H b l k f v Hb Hs Hl Hv. pose proof (query_forms c Hc) as Q. rewrite forallb_forall in Q. specialize (Q _ Hb). cbn [fst snd] in Q.
  rewrite Hs in Q. cbn [negb orb] in Q. rewrite forallb_forall in Q. specialize (Q _ Hl). unfold query_form in Q. cbn [fst snd] in Q.
  apply andb_true_iff in Q. destruct Q as [Q1 Q2]. apply negb_true_iff, dhas_false in Q1.
  assert (D : forall w, dget (cd_default (cdef c)) k = Some w -> has_form f w) by (intros w Hw; congruence).
  assert (F : forall vals x, fu_entry the_lib (cd_param (cdef c)) k vals = Ok x -> has_form f x).
  { intros vals x Hx. pose proof Hx as Hx0. unfold fu_entry in Hx. destruct (spec_of (cd_param (cdef c)) k) as [s|] eqn:Es.
    - destruct (p_typ s) as [| | | | |t] eqn:Et; try discriminate.
      + destruct (p_deser s) as [ds|] eqn:Ed; [discriminate|]. destruct vals as [|w [|w' vals]]; try discriminate. injection Hx as <-.
        apply orb_true_iff in Q2. destruct Q2 as [Q2|Q2]; apply form_eqb_eq in Q2; subst f; [left|]; exists w; reflexivity.
      + assert (T : has_type (TList TStr) x).
        { rewrite the_lib_step in Hx0. destruct t; try discriminate. rewrite <- Et. eapply fu_entry_typed; [rewrite param_spec_spec_of; exact Es| |right; exact Et|exact Hx0].
          right. split; [exact Et|]. destruct (p_deser s) as [[]|]; try discriminate; [left|right]; reflexivity. }
        assert (f = Texts) as ->. { destruct t; try discriminate. destruct (p_deser s) as [[]|]; try discriminate; apply form_eqb_eq, Q2. }
        inversion T as [| | |l0 Hl0]; subst. right. clear - Hl0. induction l0 as [|y l0 IH]; [exists []; reflexivity|].
        destruct (Hl0 y) as [s ->]; [left; reflexivity|]. destruct IH as [m Em]; [intros z Hz; apply Hl0; right; exact Hz|].
        injection Em as ->. exists (s :: m). reflexivity.
    - apply form_eqb_eq in Q2. subst f. destruct vals as [|w [|w' vals]]; injection Hx as <-.
      + right. exists []. reflexivity.
      + left. exists w. reflexivity.
      + right. exists (w :: w' :: vals). reflexivity. }
  unfold from_urlencoded, from_qs in H. destruct (parse_qs q) as [|g gs] eqn:Eq.
  - destruct q; [|discriminate]. injection H as <-. apply D, Hv.
  - pose proof (fields_form the_lib (cd_param (cdef c)) k (has_form f) F (g :: gs) (cd_default (cdef c)) D v) as Z. rewrite H in Z. apply Z, Hv.
Qed.
Theorem c129_query : forall E K hdr c q d d' e, assurance c = false -> comes_in_token c = false -> usual_args K ->
  from_urlencoded (cdef c) (cd_default (cdef c)) q = (d, Ok tt) -> openid_supported c d -> tokenless d ->
  verify E K hdr c d = (d', Err e) -> anticipated e \/ e = OutOfModel.
Proof. intros E K hdr c q d d' e Ha Hc U Q O T V. eapply c129; eauto. eapply query_expected; eassumption. Qed.
