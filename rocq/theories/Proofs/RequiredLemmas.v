(** Required parameters of the messages of the library; device token requests. *)
From Coq Require Import List NArith ZArith QArith Bool String Lia.
From Verif Require Import Base.Ustr Base.UstrLemmas Model.Cls Model.Value Model.Pspec Model.Tables Model.Json
  Model.Message Model.Env Model.Verify Spec.MessageSpec Spec.VerifySpec Spec.RequiredSpec
  Proofs.ValueLemmas Proofs.MessageLemmas Proofs.VerifyLemmas.
Import ListNotations.
Open Scope list_scope.
Open Scope N_scope.

(** verify functions that begin with Message.verify *)
Definition table_first (k : vkind) : bool :=
  match k with
  | KBase | KResponse | KAuthzResponse | KTokenResponse | KSchema | KRegistration | KRegistrationResponse
  | KIdToken | KProvider | KJwt | KLogoutToken | KBackChannel => true
  | _ => false
  end.
Lemma verify_table_err : forall E K hdr c d e, table_first (vkind_of c) = true ->
  verify_base (cdef c) d = Err e -> verify E K hdr c d = (d, Err e).
Proof.
  intros E K hdr c d e Hk H. assert (R : response_verify (cdef c) d = Err e) by (unfold response_verify; rewrite H; reflexivity).
  unfold verify. destruct (vkind_of c); try discriminate.
  - unfold pure. rewrite H. reflexivity.
  - unfold pure. rewrite R. reflexivity.
  - unfold pure, authz_response_verify. rewrite R. reflexivity.
  - unfold oidc_token_response_verify. rewrite R. reflexivity.
  - unfold pure, schema_verify. rewrite R. reflexivity.
  - unfold registration_verify. rewrite H. reflexivity.
  - unfold pure, registration_response_verify. rewrite R. reflexivity.
  - unfold pure, idtoken_verify, schema_verify. rewrite R. reflexivity.
  - unfold pure, provider_verify. rewrite R. reflexivity.
  - unfold pure, jwt_verify. rewrite H. reflexivity.
  - unfold pure, logout_token_verify. rewrite H. reflexivity.
  - unfold backchannel_verify. rewrite H. reflexivity.
Qed.
Lemma verify_table : forall E K hdr c d d', table_first (vkind_of c) = true ->
  verify E K hdr c d = (d', Ok true) -> table_ok (cdef c) d.
Proof.
  intros E K hdr c d d' Hk H. destruct (c04 (cdef c) d) as [H1 [H2 _]]. apply H1.
  destruct (verify_base (cdef c) d) as [[]|e] eqn:Ev; [reflexivity|congruence|].
  rewrite (verify_table_err E K hdr c d e Hk Ev) in H. discriminate.
Qed.

Definition required_by (c : cls) (a : ustr) : bool :=
  negb (ueqb a (u "*")) && match dget (cd_param (cdef c)) a with
    | Some s => p_req s && (ueqb a (u "active") || match p_typ s with TBool => false | _ => true end)
    | None => false
    end.
Lemma required_present : forall c d a, required_by c a = true -> table_ok (cdef c) d -> has_parameter d a.
Proof.
  intros c d a Hr [Hm _]. unfold required_by in Hr. apply andb_true_iff in Hr. destruct Hr as [Ha Hr].
  destruct (dget (cd_param (cdef c)) a) as [s|] eqn:Es; [|discriminate].
  apply andb_true_iff in Hr. destruct Hr as [Hr Ht].
  assert (Hs : a <> u "*") by (intros ->; discriminate).
  assert (G : ~ ~ exists v, dget d a = Some v /\ given s v).
  { intro G. apply (Hm a). exists s. exact (conj (dget_In _ _ _ Es) (conj Hs (conj Hr G))). }
  destruct (dget d a) as [v|] eqn:Ev.
  - exists v. split; [assumption|]. intros Hna He. apply G. intros [w [Hw Hg]]. injection Hw as <-.
    destruct Hg as [Hg|Hg]; [|exact (Hg He)]. rewrite Hg in Ht. apply orb_true_iff in Ht.
    destruct Ht as [Ht|Ht]; [|discriminate]. apply ueqb_eq in Ht. exact (Hna Ht).
  - exfalso. apply G. intros [w [Hw _]]. discriminate.
Qed.

Definition all_required : bool :=
  forallb (fun cl => table_first (vkind_of (fst cl)) && forallb (required_by (fst cl)) (snd cl)) spec_required.
Lemma all_required_true : all_required = true.
Proof. vm_compute. reflexivity. Qed.

Lemma c102 : forall E K hdr c l a d d', In (c, l) spec_required -> In a l ->
  verify E K hdr c d = (d', Ok true) -> has_parameter d a.
Proof.
  intros E K hdr c l a d d' Hc Ha H. pose proof all_required_true as G. unfold all_required in G.
  rewrite forallb_forall in G. specialize (G _ Hc). cbn [fst snd] in G. apply andb_true_iff in G. destruct G as [G1 G2].
  rewrite forallb_forall in G2. apply (required_present c); [apply G2; assumption|].
  eapply verify_table; eassumption.
Qed.
(** ... and a message without it raises *)
Lemma c102_error : forall E K hdr c l a d, In (c, l) spec_required -> In a l -> ~ has_parameter d a ->
  exists e, verify E K hdr c d = (d, Err e) /\ (e = EMissingRequiredAttribute \/ e = ENotAllowedValue).
Proof.
  intros E K hdr c l a d Hc Ha Hn. pose proof all_required_true as G. unfold all_required in G.
  rewrite forallb_forall in G. specialize (G _ Hc). cbn [fst snd] in G. apply andb_true_iff in G. destruct G as [G1 G2].
  rewrite forallb_forall in G2. specialize (G2 _ Ha). destruct (c04 (cdef c) d) as [H1 [H2 H3]].
  destruct (verify_base (cdef c) d) as [[]|e] eqn:Ev.
  - exfalso. apply Hn. apply (required_present c _ _ G2). apply H1. reflexivity.
  - congruence.
  - exists e. split; [apply verify_table_err; assumption|]. destruct (H3 e eq_refl) as [[-> _]|[-> _]]; auto.
Qed.

(** ** device token requests *)
Lemma device_eq : forall E K hdr d, verify E K hdr C_device_AccessTokenRequest d =
  (d, device_verify (cdef C_device_AccessTokenRequest) d).
Proof. reflexivity. Qed.
Lemma dhas_some : forall (d : dict value) k, dhas d k = true <-> dget d k <> None.
Proof. intros d k. unfold dhas. destruct (dget d k); split; congruence. Qed.
Lemma device_ends : forall E K hdr d, 
  (verify E K hdr C_device_AccessTokenRequest d = (d, Ok false) <->
   table_ok (cdef C_device_AccessTokenRequest) d /\
   (dget d (u "device_code") <> None -> dget d (u "grant_type") <> None /\ dget d (u "client_id") <> None)) /\
  forall d' e, verify E K hdr C_device_AccessTokenRequest d = (d', Err e) ->
    d' = d /\ (e = EMissingRequiredAttribute \/ e = ENotAllowedValue).
Proof.
  intros E K hdr d. rewrite device_eq. unfold device_verify.
  destruct (c04 (cdef C_device_AccessTokenRequest) d) as [H1 [H2 H3]]. unfold table_ok. rewrite <- H1.
  destruct (verify_base (cdef C_device_AccessTokenRequest) d) as [[]|e] eqn:Ev; [|congruence|].
  - cbn [bind]. pose proof (dhas_some d (u "device_code")) as D1. pose proof (dhas_some d (u "grant_type")) as D2.
    pose proof (dhas_some d (u "client_id")) as D3. unfold raise_if.
    destruct (dhas d (u "device_code")), (dhas d (u "grant_type")), (dhas d (u "client_id")); cbn [bind negb];
      (split; [split; [intro H|intros [_ H]]|intros d' e H]); try (injection H as <- <-); try tauto; try discriminate;
      try (split; [reflexivity|]); try (intro; split); try tauto; try (destruct H; [apply D1; reflexivity|]); try tauto; try reflexivity.
    all: exfalso; intuition congruence.
  - cbn [bind]. split; [split; [discriminate|intros [H _]; discriminate]|].
    intros d' e' H. injection H as <- <-. split; [reflexivity|]. destruct (H3 e eq_refl) as [[-> _]|[-> _]]; auto.
Qed.
Lemma device_never : forall E K hdr d, snd (verify E K hdr C_device_AccessTokenRequest d) <> Ok true.
Proof.
  intros E K hdr d. rewrite device_eq. cbn [snd]. unfold device_verify. intro H.
  apply bind_ok in H. destruct H as [b [_ H]]. apply bind_ok in H. destruct H as [t [_ H]]. discriminate.
Qed.
Lemma device_code_missing : forall E K hdr d, dget d (u "code") = None ->
  verify E K hdr C_device_AccessTokenRequest d = (d, Err EMissingRequiredAttribute).
Proof.
  intros E K hdr d H. rewrite device_eq. f_equal. unfold device_verify, verify_base.
  change (cd_param (cdef C_device_AccessTokenRequest)) with
    ((u "grant_type", sp01) :: (u "code", sp01) :: skipn 2 (cd_param (cdef C_device_AccessTokenRequest))).
  cbn [mapM fst snd]. unfold verify_param at 1.
  change (ueqb (u "grant_type") (u "*")) with false. cbv match.
  change (dget (cd_allowed (cdef C_device_AccessTokenRequest)) (u "grant_type")) with (@None (list value)).
  change (p_req sp01) with true. change (p_typ sp01) with TStr. cbv match.
  assert (G : verify_param (cdef C_device_AccessTokenRequest) d (u "code") sp01 = Err EMissingRequiredAttribute).
  { unfold verify_param. change (ueqb (u "code") (u "*")) with false. cbv match. rewrite H. reflexivity. }
  destruct (dget d (u "grant_type")) as [v|]; [|reflexivity].
  destruct (negb (truthy v)); [reflexivity|]. cbn [bind]. rewrite G. reflexivity.
Qed.

(** ** messages without a required parameter that are accepted *)
Definition lacking (c : cls) : dict value :=
  match c with
  | C_oauth2_ROPCAccessTokenRequest => [(u "grant_type", VStr (u "password"))]
  | C_oauth2_SecurityEventToken =>
      [(u "iss", VStr (u "a")); (u "iat", VInt 1); (u "jti", VStr (u "b")); (u "aud", VStr (u "c"));
       (u "sub", VStr (u "d"))]
  | C_oidc_AccessTokenResponse => [(u "access_token", VStr (u "a")); (u "token_type", VStr (u "Bearer"))]
  | _ => []
  end.
Lemma lacking_accepted : forall E K hdr c a, In (c, a) spec_required_more ->
  verify E K hdr c (lacking c) = (lacking c, Ok true) /\ ~ has_parameter (lacking c) a.
Proof.
  intros E K hdr c a H. cbn [In spec_required_more] in H.
  repeat (destruct H as [H|H]; [injection H as <- <-; split; [reflexivity|intros [v [Hv _]]; vm_compute in Hv; discriminate]|]).
  destruct H.
Qed.
