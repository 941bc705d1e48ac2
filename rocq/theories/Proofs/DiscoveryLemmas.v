(** Provider metadata and registrations in order go through. *)
From Coq Require Import List NArith ZArith Bool String Lia ZifyBool ZifyN.
From Verif Require Import Base.Ustr Base.UstrLemmas Model.Cls Model.Value Model.Pspec Model.Tables Model.Message Model.Env Model.Verify
  Spec.MessageSpec Spec.RoundTripSpec Spec.VerifySpec Spec.OrderSpec Spec.DiscoverySpec Proofs.ValueLemmas Proofs.MessageLemmas Proofs.VerifyLemmas Proofs.RoundTrip Proofs.OtherVerify Proofs.ClassVerify Proofs.OrderLemmas.
Import ListNotations.
Open Scope list_scope.
Open Scope N_scope.
Ltac Zify.zify_post_hook ::= idtac.

Lemma filter_all : forall (f : N -> bool) s, (forall c, In c s -> f c = true) -> filter f s = s.
Proof. induction s as [|c s IH]; intro H; [reflexivity|]. cbn [filter]. rewrite H by (left; reflexivity). rewrite IH; [reflexivity|]. intros x I. apply H. right. exact I. Qed.
Lemma clean_id : forall s, (forall c, In c s -> 32 < c) -> url_clean s = s.
Proof.
  intros s H. unfold url_clean. assert (E : lstrip_by c0_or_space s = s).
  { destruct s as [|c s]; [reflexivity|]. cbn [lstrip_by]. replace (c0_or_space c) with false; [reflexivity|]. specialize (H c (or_introl eq_refl)). unfold c0_or_space. lia. }
  rewrite E. apply filter_all. intros c I. apply H in I. lia.
Qed.
Lemma issuer_parts : forall E s host path, issuer_text s host path -> e_netloc_ok E host = true ->
  urlparse E s = Ok {| up_scheme := u "https"; up_query := []; up_fragment := [] |}.
Proof.
  intros E s host path [Hs Hh Hp Hr] Hn. unfold urlparse.
  assert (C : url_clean s = s).
  { apply clean_id. intros c I. rewrite Hs in I. apply in_app_iff in I. destruct I as [I|I].
    - vm_compute in I. repeat (destruct I as [<-|I]; [reflexivity|]). destruct I.
    - apply in_app_iff in I. destruct I as [I|I]; [apply Hh in I|apply Hr in I]; apply I. }
  rewrite C. assert (Sp : url_split_scheme s = (u "https", 47 :: 47 :: host ++ path)).
  { rewrite Hs. change (u "https://" ++ host ++ path) with (u "https" ++ 58 :: 47 :: 47 :: host ++ path). unfold url_split_scheme. rewrite partition1_app by reflexivity. reflexivity. }
  rewrite Sp.
  assert (T : take_until (fun c => (c =? 47) || (c =? 63) || (c =? 35)) (host ++ path) = host).
  { unfold take_until. rewrite span_app; [reflexivity| |].
    - apply forallb_forall. intros c I. apply Hh in I. destruct I as [_ I]. cbn [In] in I. destruct (N.eqb_spec c 47), (N.eqb_spec c 63), (N.eqb_spec c 35); cbn; try reflexivity; exfalso; apply I; auto.
    - destruct Hp as [->|[p ->]]; [exact I|reflexivity]. }
  cbv iota zeta. rewrite T, Hn. 
  replace (skipn (2 + List.length host) (47 :: 47 :: host ++ path)) with path by (cbn [plus skipn]; rewrite skipn_app, skipn_all, Nat.sub_diag; reflexivity).
  assert (P1 : partition1 35 path = (path, false, [])).
  { apply partition1_none. destruct (has_char 35 path) eqn:X; [|reflexivity]. apply has_char_In in X. apply Hr in X. exfalso. apply (proj2 X). right. left. reflexivity. }
  assert (P2 : partition1 63 path = (path, false, [])).
  { apply partition1_none. destruct (has_char 63 path) eqn:X; [|reflexivity]. apply has_char_In in X. apply Hr in X. exfalso. apply (proj2 X). left. reflexivity. }
  rewrite P1, P2. reflexivity.
Qed.
Lemma in_texts : forall x l, In x l -> py_in (VStr x) (VList (map VStr l)) = Ok true.
Proof. intros x l I. apply py_in_true. cbn [contains]. exists (VStr x). split; [apply in_map; exact I|]. apply ueqb_refl. Qed.
Lemma any_code_texts : forall l, exists b, any_code (map VStr l) = Ok b.
Proof. induction l as [|x l [b IH]]; [exists false; reflexivity|]. cbn [map any_code py_in bind]. destruct (substr _ x); [exists true; reflexivity|exists b; exact IH]. Qed.
Lemma metadata_accepted : forall E K hdr host d, response_ok (cdef C_oidc_ProviderConfigurationResponse) d -> metadata_ok host d -> e_netloc_ok E host = true ->
  verify E K hdr C_oidc_ProviderConfigurationResponse d = (d, Ok true).
Proof.
  intros E K hdr host d R [(s & path & Hi & It) Hs (la & Ha & Ia) (lt & Ht) (te & He)] Hn.
  change (pure (provider_verify E K (cdef C_oidc_ProviderConfigurationResponse)) d = (d, Ok true)). unfold pure. f_equal. unfold provider_verify.
  rewrite (proj2 (response_verify_ok _ _ true) (conj R eq_refl)). cbn [bind].
  assert (S1 : match dget d (u "scopes_supported") with
          | None => Ok tt
          | Some v => do b <- py_in (VStr (u "openid")) v ; do _ <- raise_if (negb b) ETypeError ; do l <- py_iter v ; do _ <- mapM (fun s => check_char_set_v s scope_charset) l ; Ok tt
          end = Ok tt).
  { destruct (dget d (u "scopes_supported")) as [v|]; [|reflexivity]. destruct (Hs v eq_refl) as (l & -> & Io & Hc). rewrite (in_texts _ _ Io). cbn [bind negb raise_if py_iter].
    assert (M : exists r, mapM (fun s => check_char_set_v s scope_charset) (map VStr l) = Ok r).
    { apply mapM_ok_iff. intros x I. apply in_map_iff in I. destruct I as (s0 & <- & I). exists tt. apply check_char_v_text. intros c Ic. exact (Hc s0 c I Ic). }
    destruct M as [r M]. rewrite M. reflexivity. }
  rewrite S1. cbn [bind]. unfold getitem. rewrite Hi. cbn [bind]. rewrite (issuer_parts _ _ _ _ It Hn). cbn [bind up_scheme up_query up_fragment is_nil andb negb].
  rewrite ueqb_refl. cbn [negb raise_if].
  replace (if khas K (u "allow_http") then Ok tt else Ok tt) with (@Ok unit tt) by (destruct (khas K (u "allow_http")); reflexivity). cbn [bind].
  rewrite Ha. cbn [bind]. rewrite (in_texts _ _ Ia). cbn [bind negb raise_if]. rewrite Ht. cbn [bind py_iter].
  destruct (any_code_texts lt) as [b Hb]. rewrite Hb. cbn [bind]. replace (dhas d (u "token_endpoint")) with true by (symmetry; apply dhas_true; exists te; exact He). rewrite andb_false_r. reflexivity.
Qed.

Lemma sent_json : forall E K hdr c d dv, content canon (cd_param (cdef c)) d -> covers_defaults (cdef c) d -> verify E K hdr c d = (dv, Ok true) ->
  exists t d' dv', to_json (cdef c) d = Ok t /\ from_json (cdef c) (cd_default (cdef c)) t = (d', Ok tt) /\ (forall k, dget d' k = dget d k) /\
    verify E K hdr c d' = (dv', Ok true) /\ forall k, dget dv' k = dget dv k.
Proof.
  intros E K hdr c d dv Hc Hd Hv. destruct (json_round_trip (cdef c) d Hc Hd) as (t & d' & A & B & G). destruct (transport E K hdr c d Hc Hd) as [(t2 & d2 & A2 & B2 & X1 & X2 & _) _].
  rewrite A in A2. injection A2 as <-. rewrite B in B2. injection B2 as <-. rewrite Hv in X1, X2. cbn [fst snd] in X1, X2. destruct (verify E K hdr c d') as [dv' r] eqn:V. cbn [fst snd] in X1, X2.
  exists t, d', dv'. split; [exact A|]. split; [exact B|]. split; [exact G|]. split; [rewrite V; f_equal; apply X2; reflexivity|]. intro k. symmetry. apply X1.
Qed.
Lemma discovery : forall E K hdr host d, content canon (cd_param (cdef C_oidc_ProviderConfigurationResponse)) d -> covers_defaults (cdef C_oidc_ProviderConfigurationResponse) d ->
  response_ok (cdef C_oidc_ProviderConfigurationResponse) d -> metadata_ok host d -> e_netloc_ok E host = true ->
  exists t d', to_json (cdef C_oidc_ProviderConfigurationResponse) d = Ok t /\
    from_json (cdef C_oidc_ProviderConfigurationResponse) (cd_default (cdef C_oidc_ProviderConfigurationResponse)) t = (d', Ok tt) /\
    verify E K hdr C_oidc_ProviderConfigurationResponse d' = (d', Ok true) /\ forall k, dget d' k = dget d k.
Proof.
  intros E K hdr host d Hc Hd R M Hn. destruct (sent_json E K hdr _ d d Hc Hd (metadata_accepted E K hdr host d R M Hn)) as (t & d' & dv' & A & B & G & V & _).
  exists t, d'. split; [exact A|]. split; [exact B|]. split; [|exact G]. assert (X : fst (verify E K hdr C_oidc_ProviderConfigurationResponse d') = d') by reflexivity. rewrite V in X. cbn [fst] in X. subst dv'. exact V.
Qed.
Lemma registering : forall E K hdr d, content canon (cd_param (cdef C_oidc_RegistrationRequest)) d -> covers_defaults (cdef C_oidc_RegistrationRequest) d ->
  table_ok (cdef C_oidc_RegistrationRequest) d -> registration_ok d ->
  exists t d' dv, to_json (cdef C_oidc_RegistrationRequest) d = Ok t /\
    from_json (cdef C_oidc_RegistrationRequest) (cd_default (cdef C_oidc_RegistrationRequest)) t = (d', Ok tt) /\
    verify E K hdr C_oidc_RegistrationRequest d' = (dv, Ok true) /\ enc_filled d dv.
Proof.
  intros E K hdr d Hc Hd T R. destruct (proj2 (c44_accept E K hdr d) (conj T R)) as [dv V]. pose proof (c44_result _ _ _ _ _ V) as (F1 & _). destruct F1 as [F1 F2].
  destruct (sent_json E K hdr _ d dv Hc Hd V) as (t & d' & dv' & A & B & G & V' & G'). exists t, d', dv'. split; [exact A|]. split; [exact B|]. split; [exact V'|]. split.
  - intros p I. rewrite G'. apply F1. exact I.
  - intros k N. rewrite G'. apply F2. exact N.
Qed.
Lemma registered : forall E K hdr d, content canon (cd_param (cdef C_oidc_RegistrationResponse)) d -> covers_defaults (cdef C_oidc_RegistrationResponse) d ->
  response_ok (cdef C_oidc_RegistrationResponse) d -> (In (u "registration_client_uri") (map fst d) <-> In (u "registration_access_token") (map fst d)) ->
  exists t d', to_json (cdef C_oidc_RegistrationResponse) d = Ok t /\
    from_json (cdef C_oidc_RegistrationResponse) (cd_default (cdef C_oidc_RegistrationResponse)) t = (d', Ok tt) /\
    verify E K hdr C_oidc_RegistrationResponse d' = (d', Ok true) /\ forall k, dget d' k = dget d k.
Proof.
  intros E K hdr d Hc Hd R B0. destruct (sent_json E K hdr _ d d Hc Hd (proj2 (c45_class E K hdr d) (conj R B0))) as (t & d' & dv' & A & B & G & V & _).
  exists t, d'. split; [exact A|]. split; [exact B|]. split; [|exact G]. assert (X : fst (verify E K hdr C_oidc_RegistrationResponse d') = d') by reflexivity. rewrite V in X. cbn [fst] in X. subst dv'. exact V.
Qed.
