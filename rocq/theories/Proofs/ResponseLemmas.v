(** Responses with an ID Token, request objects, authorization requests. *)
From Coq Require Import List NArith ZArith QArith Bool String Lia ZifyBool ZifyN.
From Verif Require Import Base.Ustr Base.UstrLemmas Model.Cls Model.Value Model.Pspec Model.Tables Model.Json
  Model.Message Model.Env Model.Verify Spec.MessageSpec Spec.VerifySpec
  Proofs.ValueLemmas Proofs.MessageLemmas Proofs.EncodeLemmas Proofs.VerifyLemmas Proofs.DateLemmas Proofs.TokenLemmas
  Proofs.IdTokenLemmas.
Import ListNotations.
Open Scope list_scope.
Open Scope N_scope.

Notation slot_id_token := (u "__verified_id_token").
Notation slot_request := (u "__verified_request").
Notation slot_hint := (u "__verified_id_token_hint").

Lemma slot_undeclared : forall c k, In k [slot_id_token; slot_request; slot_hint; u "verified_id_token_hint"; u "__verified_logout_token"] ->
  dget (cd_param (cdef c)) k = None.
Proof.
  intros c k Hk. cbn [In] in Hk.
  destruct Hk as [<-|[<-|[<-|[<-|[<-|[]]]]]]; destruct c; vm_compute; reflexivity.
Qed.
Lemma setitem_slot : forall c d k v,
  In k [slot_id_token; slot_request; slot_hint; u "verified_id_token_hint"; u "__verified_logout_token"] ->
  setitem (cdef c) d k v = (dset d k v, Ok tt).
Proof. intros c d k v H. unfold setitem. rewrite (slot_undeclared c k H). reflexivity. Qed.

Lemma dget_clear : forall (d : dict value) k, dget (clear_verified d) k =
  if ueqb k slot_id_token || ueqb k slot_hint || ueqb k slot_request then None else dget d k.
Proof.
  intros d k. unfold clear_verified.
  change (verified_claim_name (u "id_token")) with slot_id_token.
  change (verified_claim_name (u "id_token_hint")) with slot_hint.
  change (verified_claim_name (u "request")) with slot_request.
  rewrite !dget_ddel. destruct (ueqb k slot_request), (ueqb k slot_hint), (ueqb k slot_id_token); reflexivity.
Qed.

(** ** responses with an ID Token *)
Lemma verify_id_token_true : forall E i K c ch claim msg d', In (verified_claim_name claim) [slot_id_token; slot_hint] ->
  verify_id_token E i K (cdef c) ch claim msg = (d', Ok true) ->
  exists idt, check_id_token E i K ch claim msg = Ok (Some idt) /\
    d' = dset msg (verified_claim_name claim) (VMsg C_oidc_IdToken idt).
Proof.
  intros E i K c ch claim msg d' Hc H. unfold verify_id_token in H.
  destruct (check_id_token E i K ch claim msg) as [[idt|]|e]; [|congruence|congruence].
  rewrite setitem_slot in H by (cbn [In] in *; tauto). cbn [andthen] in H.
  exists idt. split; [reflexivity|]. destruct (to_dict (cdef C_oidc_IdToken) idt); congruence.
Qed.

Lemma with_id_token_true : forall E K c ch d d', with_id_token E K (cdef c) ch d = (d', Ok true) ->
  (dget d (u "id_token") = None /\ d' = d) \/
  exists idt, check_id_token E 0 K ch (u "id_token") d = Ok (Some idt) /\
    d' = dset d slot_id_token (VMsg C_oidc_IdToken idt).
Proof.
  intros E K c ch d d' H. unfold with_id_token in H. destruct (dhas d (u "id_token")) eqn:Eh.
  - right. apply verify_id_token_true in H; [exact H|left; reflexivity].
  - left. apply dhas_false in Eh. split; congruence.
Qed.

Lemma checked_true : forall A (r : res A) d f d', checked r d f = (d', Ok true) -> exists a, r = Ok a /\ f d = (d', Ok true).
Proof. intros A [a|e] d f d' H; cbn [checked] in H; [eauto|congruence]. Qed.

Lemma kinds : forall c, has_id_token_check c ->
  (vkind_of c = KTokenResponse /\ subclass c C_oidc_AuthorizationResponse = false /\ subclass c C_oidc_AccessTokenResponse = true) \/
  (vkind_of c = KOidcAuthzResponse /\ subclass c C_oidc_AuthorizationResponse = true) \/
  (vkind_of c = KWithIdToken /\ subclass c C_oidc_AuthorizationResponse = false /\ subclass c C_oidc_AccessTokenResponse = false).
Proof.
  intros c H.
  destruct c; first [left; vm_compute; repeat split; reflexivity|right; left; vm_compute; repeat split; reflexivity
    |right; right; vm_compute; repeat split; reflexivity|exfalso; vm_compute in H; destruct H as [H|[H|H]]; discriminate].
Qed.

Lemma id_response_true : forall E K hdr c d d', has_id_token_check c -> verify E K hdr c d = (d', Ok true) ->
  exists d1 ch, (d1 = d \/ d1 = clear_verified d) /\
    (subclass c C_oidc_AuthorizationResponse = true -> ch = true) /\
    (subclass c C_oidc_AccessTokenResponse = true \/ subclass c C_oidc_AuthorizationResponse = true -> d1 = clear_verified d) /\
    ((dget d1 (u "id_token") = None /\ d' = d1) \/
     exists idt, check_id_token E 0 K ch (u "id_token") d1 = Ok (Some idt) /\
       d' = dset d1 slot_id_token (VMsg C_oidc_IdToken idt)).
Proof.
  intros E K hdr c d d' Hc H. unfold verify in H.
  destruct (kinds c Hc) as [[Hk [H1 H2]]|[[Hk H1]|[Hk [H1 H2]]]]; rewrite Hk in H.
  - unfold oidc_token_response_verify in H. apply checked_true in H. destruct H as [_ [_ H]].
    exists (clear_verified d), false. repeat split; auto; try congruence. apply with_id_token_true in H. exact H.
  - unfold oidc_authz_response_verify in H. apply checked_true in H. destruct H as [_ [_ H]].
    exists (clear_verified d), true. repeat split; auto.
    destruct (dget (clear_verified d) (u "aud")) as [aud|].
    2: { apply with_id_token_true in H. exact H. }
    destruct (kget K (u "client_id")) as [cl|].
    2: { apply with_id_token_true in H. exact H. }
    destruct (not_in cl aud) as [[|]|]; [congruence| |congruence].
    apply with_id_token_true in H. exact H.
  - unfold mwit_verify in H. apply checked_true in H. destruct H as [_ [_ H]].
    exists d, false. repeat split; auto; try congruence.
    + intros [Hx|Hx]; congruence.
    + apply with_id_token_true in H. exact H.
Qed.

Lemma id_response_accepted : forall E K hdr c d d' t, has_id_token_check c -> verify E K hdr c d = (d', Ok true) ->
  dget d (u "id_token") = Some (VStr t) -> not_encrypted E t ->
  exists tok body idt ch, e_jws E (VStr t) = Ok (Some tok) /\ t_body tok = Ok body /\
    dget d' slot_id_token = Some (VMsg C_oidc_IdToken idt) /\
    (subclass c C_oidc_AuthorizationResponse = true -> ch = true) /\
    id_token_accepted E K ch d t tok body idt.
Proof.
  intros E K hdr c d d' t Hc H Ht Hn. destruct (id_response_true _ _ _ _ _ _ Hc H) as [d1 [ch [Hd1 [Hch [_ Hr]]]]].
  assert (Hg : forall k, In k [u "id_token"; u "access_token"; u "code"] -> dget d1 k = dget d k).
  { intros k Hk. destruct Hd1 as [->| ->]; [reflexivity|]. rewrite dget_clear. cbn [In] in Hk.
    destruct Hk as [<-|[<-|[<-|[]]]]; reflexivity. }
  assert (Ht1 : dget d1 (u "id_token") = Some (VStr t)) by (rewrite Hg; [assumption|left; reflexivity]).
  destruct Hr as [[Hr _]|[idt [Hr Hd']]]; [congruence|].
  destruct (check_id_token_text _ _ _ _ _ _ _ _ Hr Ht1 Hn) as [tok [body [G1 [G2 [_ [_ G3]]]]]].
  exists tok, body, idt, ch. split; [assumption|]. split; [assumption|].
  split; [subst d'; apply dget_dset_same|]. split; [assumption|].
  destruct G3 as [A1 A2 A3 A4 A5 A6 A7]. constructor; try assumption.
  rewrite !Hg in A7 by (cbn; tauto). assumption.
Qed.

Lemma c29 : forall E K hdr c d d' t tok, has_id_token_check c -> verify E K hdr c d = (d', Ok true) ->
  dget d (u "id_token") = Some (VStr t) -> not_encrypted E t -> e_jws E (VStr t) = Ok (Some tok) -> signed_tok tok ->
  (forall v, kget K (u "verify") = Some v -> ~ empty_value v) ->
  signature_verified_for E K t tok.
Proof.
  intros E K hdr c d d' t tok Hc H Ht Hn Hj Hs Hv.
  destruct (id_response_accepted _ _ _ _ _ _ _ Hc H Ht Hn) as [tok' [body [idt [ch [G1 [_ [_ [_ G]]]]]]]].
  rewrite Hj in G1. injection G1 as <-. exact (a_sig _ _ _ _ _ _ _ _ G Hs Hv).
Qed.
Lemma c29_keys : forall E K hdr c d d' t tok, has_id_token_check c -> verify E K hdr c d = (d', Ok true) ->
  dget d (u "id_token") = Some (VStr t) -> not_encrypted E t -> e_jws E (VStr t) = Ok (Some tok) -> signed_tok tok ->
  (forall v, kget K (u "verify") = Some v -> ~ empty_value v) -> sig_needs_keys E ->
  exists i b args alg keys, passed_on K args /\ e_kj_keys E i b tok args = Ok keys /\ keys <> [] /\
    demanded_alg args alg /\ e_sig E t alg keys = Ok tt.
Proof.
  intros E K hdr c d d' t tok Hc H Ht Hn Hj Hs Hv Hk.
  destruct (c29 _ _ _ _ _ _ _ _ Hc H Ht Hn Hj Hs Hv) as [args [Hp Hw]].
  destruct (sig_keys E args t tok Hk Hw) as [i [b [alg [keys G]]]]. exists i, b, args, alg, keys. auto.
Qed.
Lemma c30 : forall E K hdr c d d' t tok, has_id_token_check c -> verify E K hdr c d = (d', Ok true) ->
  dget d (u "id_token") = Some (VStr t) -> e_jws E (VStr t) = Ok (Some tok) ->
  dget (t_hdr tok) (u "alg") = Some (VStr (u "none")) ->
  kget K (u "sigalg") = Some (VStr (u "none")) \/
  exists v, kget K (u "allow_sign_alg_none") = Some v /\ v <> VBool false.
Proof.
  intros E K hdr c d d' t tok Hc H Ht Hj Ha. destruct (id_response_true _ _ _ _ _ _ Hc H) as [d1 [ch [Hd1 [Hch [_ Hr]]]]].
  assert (Ht1 : dget d1 (u "id_token") = Some (VStr t)).
  { destruct Hd1 as [->| ->]; [assumption|]. rewrite dget_clear. assumption. }
  destruct Hr as [[Hr _]|[idt [Hr Hd']]]; [congruence|]. apply check_id_token_inv in Hr.
  destruct Hr as [v [tok2 [signed [body [t2 [h [H1 [H2 [H3 _]]]]]]]]].
  rewrite Ht1 in H1. injection H1 as <-. rewrite Hj in H2. injection H2 as <-. exact (alg_check_none _ _ _ H3 Ha).
Qed.
Lemma c31 : forall E K hdr c d d' t tok a, has_id_token_check c -> verify E K hdr c d = (d', Ok true) ->
  dget d (u "id_token") = Some (VStr t) -> e_jws E (VStr t) = Ok (Some tok) -> signed_tok tok ->
  kget K (u "allowed_sign_alg") = Some a ->
  exists alg, dget (t_hdr tok) (u "alg") = Some alg /\ py_eq alg a = true.
Proof.
  intros E K hdr c d d' t tok a Hc H Ht Hj Hs Ha. destruct (id_response_true _ _ _ _ _ _ Hc H) as [d1 [ch [Hd1 [Hch [_ Hr]]]]].
  assert (Ht1 : dget d1 (u "id_token") = Some (VStr t)).
  { destruct Hd1 as [->| ->]; [assumption|]. rewrite dget_clear. assumption. }
  destruct Hr as [[Hr _]|[idt [Hr Hd']]]; [congruence|]. apply check_id_token_inv in Hr.
  destruct Hr as [v [tok2 [signed [body [t2 [h [H1 [H2 [H3 _]]]]]]]]].
  rewrite Ht1 in H1. injection H1 as <-. rewrite Hj in H2. injection H2 as <-. exact (alg_check_allowed _ _ _ _ H3 Hs Ha).
Qed.

(** the exceptions of C32 *)
Lemma c32_errors : forall E i K ch claim msg v tok b, dget msg claim = Some v -> e_jws E v = Ok (Some tok) ->
  signed_tok tok -> t_body tok = Ok (VDict b) -> kw_jar K = true -> (exists r, alg_check K tok = Ok r) ->
  (dget b (u "iss") = None -> check_id_token E i K ch claim msg = Err EMissingRequiredAttribute) /\
  (forall iss, dget b (u "iss") = Some iss -> e_kj_in E iss = Ok false -> check_id_token E i K ch claim msg = Err EValueError).
Proof.
  intros E i K ch claim msg v tok b Hm Hj Hs Hb Hk [r Hr].
  assert (r = true) by (apply (alg_check_true _ _ _ Hr); assumption). subst r.
  assert (Hg : getitem msg claim = Ok v) by (apply getitem_ok; assumption).
  unfold check_id_token. rewrite Hg. cbn [bind]. rewrite Hj. cbn [bind]. rewrite Hr. cbn [bind]. rewrite Hb. cbn [bind].
  unfold issuer_check. rewrite Hk. cbn [andb py_item]. split.
  - intros ->. reflexivity.
  - intros iss -> Hi. cbn [bind]. rewrite Hi. reflexivity.
Qed.

Lemma c32 : forall E K hdr c d d' t tok, has_id_token_check c -> verify E K hdr c d = (d', Ok true) ->
  dget d (u "id_token") = Some (VStr t) -> not_encrypted E t -> e_jws E (VStr t) = Ok (Some tok) -> signed_tok tok ->
  exists body iss, t_body tok = Ok body /\
    ((exists b, body = VDict b /\ dget b (u "iss") = Some iss) \/
     (exists c b, body = VMsg c b /\ dget b (u "iss") = Some iss)) /\ e_kj_in E iss = Ok true.
Proof.
  intros E K hdr c d d' t tok Hc H Ht Hn Hj Hs.
  destruct (id_response_accepted _ _ _ _ _ _ _ Hc H Ht Hn) as [tok' [body [idt [ch [G1 [G2 [_ [_ G]]]]]]]].
  rewrite Hj in G1. injection G1 as <-. destruct (a_iss _ _ _ _ _ _ _ _ G Hs) as [iss [I1 I2]]. eauto.
Qed.

Lemma c33 : forall E K hdr c d d' t tok, subclass c C_oidc_AuthorizationResponse = true ->
  verify E K hdr c d = (d', Ok true) ->
  dget d (u "id_token") = Some (VStr t) -> not_encrypted E t -> e_jws E (VStr t) = Ok (Some tok) -> signed_tok tok ->
  exists idt alg h, dget d' slot_id_token = Some (VMsg C_oidc_IdToken idt) /\
    dget (t_hdr tok) (u "alg") = Some (VStr alg) /\ hash_of_alg alg h /\
    (forall x, dget d (u "access_token") = Some x -> exists a y,
       dget idt (u "at_hash") = Some a /\ e_lhash E x h = Ok y /\ py_eq a y = true) /\
    (forall x, dget d (u "code") = Some x -> exists a y,
       dget idt (u "c_hash") = Some a /\ e_lhash E x h = Ok y /\ py_eq a y = true).
Proof.
  intros E K hdr c d d' t tok Hc H Ht Hn Hj Hs.
  assert (Hc2 : has_id_token_check c) by (right; left; assumption).
  destruct (id_response_accepted _ _ _ _ _ _ _ Hc2 H Ht Hn) as [tok' [body [idt [ch [G1 [_ [G2 [G3 G]]]]]]]].
  rewrite Hj in G1. injection G1 as <-.
  destruct (a_hash _ _ _ _ _ _ _ _ G Hs (G3 Hc)) as [alg [h [I1 [I2 [I3 I4]]]]].
  exists idt, alg, h. auto 6.
Qed.

Lemma c37 : forall E K hdr c d d',
  subclass c C_oidc_AccessTokenResponse = true \/ subclass c C_oidc_AuthorizationResponse = true ->
  verify E K hdr c d = (d', Ok true) ->
  dget d' slot_request = None /\ dget d' slot_hint = None /\
  (forall k, k <> slot_request -> k <> slot_hint -> k <> slot_id_token -> dget d' k = dget d k) /\
  (dget d (u "id_token") = None -> dget d' slot_id_token = None) /\
  (forall v, dget d (u "id_token") = Some v -> exists t idt, py_str_e E v = Ok t /\
     decoded E 0 C_oidc_IdToken t idt /\ schema_ok (cdef C_oidc_IdToken) idt /\
     id_token_rules (e_now E) K idt /\ dget d' slot_id_token = Some (VMsg C_oidc_IdToken idt)).
Proof.
  intros E K hdr c d d' Hc H.
  assert (Hc2 : has_id_token_check c) by (destruct Hc; [left|right; left]; assumption).
  destruct (id_response_true _ _ _ _ _ _ Hc2 H) as [d1 [ch [_ [_ [Hd1 Hr]]]]]. specialize (Hd1 Hc). subst d1.
  assert (N : forall k, k <> slot_request -> k <> slot_hint -> k <> slot_id_token -> dget (clear_verified d) k = dget d k).
  { intros k H1 H2 H3. rewrite dget_clear. apply ueqb_neq in H1, H2, H3. rewrite H1, H2, H3. reflexivity. }
  assert (I : dget (clear_verified d) (u "id_token") = dget d (u "id_token")) by (apply N; discriminate).
  destruct Hr as [[H1 ->]|[idt [H1 ->]]].
  - rewrite I in H1. split; [rewrite dget_clear; reflexivity|]. split; [rewrite dget_clear; reflexivity|].
    split; [assumption|]. split; [intros _; rewrite dget_clear; reflexivity|]. congruence.
  - split; [rewrite dget_dset_other by discriminate; rewrite dget_clear; reflexivity|].
    split; [rewrite dget_dset_other by discriminate; rewrite dget_clear; reflexivity|].
    split; [intros k K1 K2 K3; rewrite dget_dset_other by assumption; auto|].
    apply check_id_token_inv in H1. destruct H1 as [v [tok [sg [body [t [h [G1 [G2 [G3 [G4 [G5 [G6 [G7 [G8 _]]]]]]]]]]]]]].
    rewrite I in G1. split; [congruence|]. intros v' Hv. rewrite Hv in G1. injection G1 as ->.
    apply idtoken_verify_ok in G8. exists t, idt. split; [assumption|].
    split; [exact (from_jwt_decoded _ _ _ _ _ _ _ _ _ G7)|]. split; [tauto|]. split; [tauto|]. apply dget_dset_same.
Qed.

(** ** request objects of OAuth2 *)
Lemma from_jwt_checked : forall E i c t jar args d hdr, from_jwt E i (cdef c) t jar true args = Ok (d, hdr) ->
  signature_checked E t.
Proof.
  intros E i c t jar args d hdr H tok Hn Hj Hs. exists args. eapply c54; [exact H|apply not_encrypted_decrypt; assumption|assumption|assumption].
Qed.

Lemma jar_merge_true : forall E K c tr d r d', jar_merge E K (cdef c) tr d r = (d', Ok true) ->
  exists t req, py_str_e E r = Ok t /\ decoded E 0 C_oauth2_AuthorizationRequest t req /\ signature_checked E t /\
    NoDup (map fst req) /\
    d' = dset (merge (ddel d slot_request) req tr) slot_request (VMsg C_oauth2_AuthorizationRequest req).
Proof.
  intros E K c tr d r d' H. unfold jar_merge in H.
  destruct (py_str_e E r) as [t|e]; cbn [bind] in H; [|congruence].
  destruct (from_jwt E 0 (cdef C_oauth2_AuthorizationRequest) t (kw_jar K) true (request_args K)) as [[req hdr]|e] eqn:Ef; [|congruence].
  change (verified_claim_name (u "request")) with slot_request in H.
  rewrite setitem_slot in H by (cbn; tauto).
  exists t, req. split; [reflexivity|]. split; [exact (from_jwt_decoded _ _ _ _ _ _ _ _ _ Ef)|].
  split; [exact (from_jwt_checked _ _ _ _ _ _ _ _ Ef)|].
  split; [exact (from_jwt_nodup _ _ _ _ _ _ _ _ _ Ef)|]. unfold clear in H. congruence.
Qed.

Lemma c27_request : forall E K hdr d d' r,
  verify E K hdr C_oauth2_JWTSecuredAuthorizationRequest d = (d', Ok true) -> dget d (u "request") = Some r ->
  exists t req, py_str_e E r = Ok t /\ decoded E 0 C_oauth2_AuthorizationRequest t req /\ signature_checked E t /\
    dget d' slot_request = Some (VMsg C_oauth2_AuthorizationRequest req) /\
    forall k, k <> slot_request -> dget d' k = dget req k.
Proof.
  intros E K hdr d d' r H Hr. change (jar_verify E K (cdef C_oauth2_JWTSecuredAuthorizationRequest) d = (d', Ok true)) in H.
  unfold jar_verify in H. rewrite Hr in H. apply jar_merge_true in H.
  destruct H as [t [req [H1 [H2 [H3 [H4 ->]]]]]]. exists t, req. repeat (split; [assumption|]).
  split; [apply dget_dset_same|]. intros k Hk. rewrite dget_dset_other by assumption. apply merge_strict. assumption.
Qed.
Lemma c27_par : forall E K hdr d d' r,
  verify E K hdr C_oauth2_PushedAuthorizationRequest d = (d', Ok true) -> dget d (u "request") = Some r ->
  exists t req, py_str_e E r = Ok t /\ decoded E 0 C_oauth2_AuthorizationRequest t req /\ signature_checked E t /\
    dget d' slot_request = Some (VMsg C_oauth2_AuthorizationRequest req) /\
    forall k, k <> slot_request -> dget d' k = match dget req k with Some v => Some v | None => dget d k end.
Proof.
  intros E K hdr d d' r H Hr. change (par_verify E K (cdef C_oauth2_PushedAuthorizationRequest) d = (d', Ok true)) in H.
  unfold par_verify in H. rewrite Hr in H. apply jar_merge_true in H.
  destruct H as [t [req [H1 [H2 [H3 [H4 ->]]]]]]. exists t, req. repeat (split; [assumption|]).
  split; [apply dget_dset_same|]. intros k Hk. rewrite dget_dset_other by assumption. rewrite merge_lax by assumption.
  rewrite dget_ddel. apply ueqb_neq in Hk. rewrite Hk. reflexivity.
Qed.
Lemma c27_neither : forall E K hdr d, dget d (u "request") = None -> dget d (u "request_uri") = None ->
  verify E K hdr C_oauth2_JWTSecuredAuthorizationRequest d = (d, Err EMissingAttribute).
Proof.
  intros E K hdr d H1 H2. change (jar_verify E K (cdef C_oauth2_JWTSecuredAuthorizationRequest) d = (d, Err EMissingAttribute)).
  unfold jar_verify. rewrite H1. apply dhas_false in H2. rewrite H2. reflexivity.
Qed.

(** ** oidc.AuthorizationRequest *)
Lemma request_rules_true : forall K d, request_rules K d = Ok true -> authz_rules K d.
Proof.
  intros K d H. unfold request_rules in H.
  destruct (dget d (u "response_type")) as [rt|] eqn:Ert; [|discriminate].
  bo H. bo H. bo H. bo H. bo H. bo H. bo H.
  unfold get in Hx1, Hx3.
  assert (Ho : x1 = true) by (apply raise_if_ok in Hx2; destruct x1; [reflexivity|destruct Hx2; discriminate]).
  subst x1.
  assert (Hsc : exists sc, dget d (u "scope") = Some sc).
  { destruct (dget d (u "scope")) as [sc|]; [eauto|]. discriminate. }
  destruct Hsc as [sc Hsc]. rewrite Hsc in Hx1, Hx3.
  constructor.
  - eauto.
  - intros rt' He Hc. rewrite Ert in He. injection He as <-. apply py_in_true in Hc. rewrite Hc in Hx. injection Hx as <-.
    destruct (dget d (u "nonce")) as [n|]; [|discriminate]. exists n. split; [reflexivity|].
    intros m Hm. rewrite Hm in Hx0. apply raise_if_ok in Hx0. apply py_ne_false. tauto.
  - exists sc. split; [assumption|]. apply py_in_true. assumption.
  - intros sc' He Hc. rewrite Hsc in He. injection He as <-. apply py_in_true in Hc. rewrite Hc in Hx3. injection Hx3 as <-.
    destruct (dget d (u "prompt")) as [p|]; [|discriminate]. exists p. split; [reflexivity|].
    bo Hx4. apply raise_if_ok in Hx4. destruct Hx4 as [Hx4 _]. destruct x1; [|discriminate].
    apply py_in_true. assumption.
  - intros p He Hc. rewrite He in Hx5. apply py_in_true in Hc. rewrite Hc in Hx5. cbn [bind] in Hx5.
    bo Hx5. apply raise_if_ok in Hx5. apply py_len_sized in Hx6. destruct Hx6 as [m [Hm ->]].
    exists m. split; [assumption|]. lia.
Qed.

Lemma oidc_request_kind : forall c, subclass c C_oidc_AuthorizationRequest = true -> vkind_of c = KOidcAuthzRequest.
Proof. intros c H. destruct c; try reflexivity; vm_compute in H; discriminate. Qed.

Lemma oidc_request_true : forall E K hdr c d d', subclass c C_oidc_AuthorizationRequest = true ->
  verify E K hdr c d = (d', Ok true) ->
  table_ok (cdef c) d /\ authz_rules K d' /\
  exists args d2, request_step E K (cdef c) args (clear_verified d) = (d2, Ok tt) /\
    hint_step E K (cdef c) args d2 = (d', Ok tt).
Proof.
  intros E K hdr c d d' Hc H. unfold verify in H. rewrite (oidc_request_kind c Hc) in H.
  unfold oidc_authz_request_verify in H. apply checked_true in H. destruct H as [a [Ha H]].
  apply verify_base_true in Ha. split; [tauto|].
  destruct (authz_args K (clear_verified d)) as [args|e]; [|congruence].
  destruct (request_step E K (cdef c) args (clear_verified d)) as [d2 [[]|e]] eqn:E2; cbn [andthen] in H; [|congruence].
  destruct (hint_step E K (cdef c) args d2) as [d3 [[]|e]] eqn:E3; cbn [andthen] in H; [|congruence].
  injection H as -> H. split; [apply request_rules_true; assumption|]. eauto.
Qed.

Lemma hint_step_ok : forall E K c args d d', hint_step E K (cdef c) args d = (d', Ok tt) ->
  (exists t idt, dget d (u "id_token_hint") = Some (VStr t) /\ decoded E 1 C_oidc_IdToken t idt /\ signature_checked E t /\
     d' = dset d (u "verified_id_token_hint") (VMsg C_oidc_IdToken idt)) \/
  ((forall t, dget d (u "id_token_hint") <> Some (VStr t)) /\ d' = d).
Proof.
  intros E K c args d d' H. unfold hint_step in H.
  destruct (dget d (u "id_token_hint")) as [[| | | |t| | |]|]; try (right; split; congruence).
  left. destruct (from_jwt E 1 (cdef C_oidc_IdToken) t (kw_jar K) true args) as [[idt h]|e] eqn:Ef; [|congruence].
  rewrite setitem_slot in H by (cbn; tauto). exists t, idt. split; [reflexivity|].
  split; [exact (from_jwt_decoded _ _ _ _ _ _ _ _ _ Ef)|]. split; [exact (from_jwt_checked _ _ _ _ _ _ _ _ Ef)|]. congruence.
Qed.
Lemma ro_replace_get : forall d ro k, NoDup (map fst ro) -> dget (ro_replace d ro) k = dget ro k.
Proof. intros d ro k H. exact (merge_strict d ro k H). Qed.
Lemma request_step_ok : forall E K c args d d', request_step E K (cdef c) args d = (d', Ok tt) ->
  (exists t ro, dget d (u "request") = Some (VStr t) /\ decoded E 0 C_oidc_OpenIDRequest t ro /\ signature_checked E t /\
     dget d' slot_request = Some (VMsg C_oidc_OpenIDRequest ro) /\
     forall k, k <> slot_request -> dget d' k = dget ro k) \/
  ((forall t, dget d (u "request") <> Some (VStr t)) /\ d' = d).
Proof.
  intros E K c args d d' H. unfold request_step in H.
  destruct (dget d (u "request")) as [[| | | |t| | |]|]; try (right; split; congruence).
  left. destruct (from_jwt E 0 (cdef C_oidc_OpenIDRequest) t (kw_jar K) true args) as [[ro h]|e] eqn:Ef; [|congruence].
  destruct (ro_log d ro); [|congruence]. change (verified_claim_name (u "request")) with slot_request in H.
  rewrite setitem_slot in H by (cbn; tauto). exists t, ro. split; [reflexivity|].
  split; [exact (from_jwt_decoded _ _ _ _ _ _ _ _ _ Ef)|]. split; [exact (from_jwt_checked _ _ _ _ _ _ _ _ Ef)|].
  injection H as <-. split; [apply dget_dset_same|]. intros k Hk. rewrite dget_dset_other by assumption.
  apply ro_replace_get. exact (from_jwt_nodup _ _ _ _ _ _ _ _ _ Ef).
Qed.

Lemma c41 : forall E K hdr c d d', subclass c C_oidc_AuthorizationRequest = true ->
  verify E K hdr c d = (d', Ok true) -> authz_rules K d'.
Proof. intros E K hdr c d d' Hc H. apply oidc_request_true in H; [|assumption]. tauto. Qed.

Lemma c42 : forall E K hdr c d d' t, subclass c C_oidc_AuthorizationRequest = true ->
  verify E K hdr c d = (d', Ok true) -> dget d (u "request") = Some (VStr t) ->
  exists ro, decoded E 0 C_oidc_OpenIDRequest t ro /\ signature_checked E t /\
    dget d' slot_request = Some (VMsg C_oidc_OpenIDRequest ro) /\
    (forall k, k <> slot_request -> k <> u "verified_id_token_hint" -> dget d' k = dget ro k) /\
    (dget ro (u "id_token_hint") = None -> dget d' (u "verified_id_token_hint") = dget ro (u "verified_id_token_hint")).
Proof.
  intros E K hdr c d d' t Hc H Hr. apply oidc_request_true in H; [|assumption].
  destruct H as [_ [_ [args [d2 [H1 H2]]]]].
  assert (Hr1 : dget (clear_verified d) (u "request") = Some (VStr t)) by (rewrite dget_clear; exact Hr).
  apply request_step_ok in H1. destruct H1 as [[t' [ro [G1 [G2 [G3 [G4 G5]]]]]]|[G1 _]]; [|exfalso; eapply G1; eassumption].
  rewrite Hr1 in G1. injection G1 as <-. exists ro. split; [assumption|]. split; [assumption|].
  apply hint_step_ok in H2. destruct H2 as [[th [idt [I1 [_ [_ ->]]]]]|[_ ->]].
  - split; [rewrite dget_dset_other by discriminate; assumption|].
    split; [intros k K1 K2; rewrite dget_dset_other by assumption; auto|].
    intro Hn. rewrite G5 in I1 by discriminate. congruence.
  - split; [assumption|]. split; [intros k K1 K2; auto|]. intros _. apply G5. discriminate.
Qed.

Lemma c38 : forall E K hdr c d d' v, subclass c C_oidc_AuthorizationRequest = true ->
  verify E K hdr c d = (d', Ok true) -> dget d' (u "verified_id_token_hint") = Some v ->
  (exists t idt, dget d' (u "id_token_hint") = Some (VStr t) /\ decoded E 1 C_oidc_IdToken t idt /\
     signature_checked E t /\ v = VMsg C_oidc_IdToken idt) \/
  dget d (u "verified_id_token_hint") = Some v \/
  (exists t ro, dget d (u "request") = Some (VStr t) /\ decoded E 0 C_oidc_OpenIDRequest t ro /\
     dget ro (u "verified_id_token_hint") = Some v).
Proof.
  intros E K hdr c d d' v Hc H Hv. apply oidc_request_true in H; [|assumption].
  destruct H as [_ [_ [args [d2 [H1 H2]]]]].
  apply hint_step_ok in H2. destruct H2 as [[th [idt [I1 [I2 [I3 ->]]]]]|[_ ->]].
  - left. exists th, idt. rewrite dget_dset_same in Hv. injection Hv as <-.
    rewrite dget_dset_other by discriminate. auto.
  - right. apply request_step_ok in H1. destruct H1 as [[t' [ro [G1 [G2 [G3 [G4 G5]]]]]]|[_ ->]].
    + right. exists t', ro. rewrite dget_clear in G1. rewrite G5 in Hv by discriminate. auto.
    + left. rewrite dget_clear in Hv. assumption.
Qed.
Lemma c38_decoded : forall E K hdr c d d' t, subclass c C_oidc_AuthorizationRequest = true ->
  verify E K hdr c d = (d', Ok true) -> dget d' (u "id_token_hint") = Some (VStr t) ->
  exists idt, decoded E 1 C_oidc_IdToken t idt /\ signature_checked E t /\
    dget d' (u "verified_id_token_hint") = Some (VMsg C_oidc_IdToken idt).
Proof.
  intros E K hdr c d d' t Hc H Ht. apply oidc_request_true in H; [|assumption].
  destruct H as [_ [_ [args [d2 [H1 H2]]]]].
  apply hint_step_ok in H2. destruct H2 as [[th [idt [I1 [I2 [I3 ->]]]]]|[N ->]].
  - rewrite dget_dset_other in Ht by discriminate. rewrite Ht in I1. injection I1 as ->.
    exists idt. split; [assumption|]. split; [assumption|]. apply dget_dset_same.
  - exfalso. eapply N; eassumption.
Qed.

(** the required parameters: response_type and scope always, all of them without request object,
    and else those the request object has *)
Lemma c43 : forall E K hdr c d d', subclass c C_oidc_AuthorizationRequest = true ->
  verify E K hdr c d = (d', Ok true) ->
  (exists v, dget d' (u "response_type") = Some v) /\ (exists v, dget d' (u "scope") = Some v) /\
  ((forall t, dget d (u "request") <> Some (VStr t)) ->
     forall a s, In (a, s) (cd_param (cdef c)) -> a <> u "*" -> p_req s = true -> exists v, dget d' a = Some v /\ given s v) /\
  (forall t, dget d (u "request") = Some (VStr t) -> exists ro, decoded E 0 C_oidc_OpenIDRequest t ro /\
     forall a, a <> slot_request -> a <> u "verified_id_token_hint" -> dget d' a = dget ro a).
Proof.
  intros E K hdr c d d' Hc H. pose proof H as H0. apply oidc_request_true in H; [|assumption].
  destruct H as [Ht [Hr [args [d2 [H1 H2]]]]].
  split; [exact (q_type _ _ Hr)|]. split; [destruct (q_openid _ _ Hr) as [sc [G _]]; eauto|]. split.
  - intros Hn a s Hin Hs Hq. apply request_step_ok in H1. destruct H1 as [[t [ro [G _]]]|[_ ->]].
    { exfalso. rewrite dget_clear in G. eapply Hn; exact G. }
    assert (Hslot : forall k, In k [slot_id_token; slot_request; slot_hint; u "verified_id_token_hint"; u "__verified_logout_token"] -> a <> k).
    { intros k Hk ->. pose proof (slot_undeclared c k Hk) as G. apply dget_None in G. apply G.
      apply in_map_iff. exists (k, s). auto. }
    assert (Hget : dget d' a = dget d a).
    { assert (Hg : dget (clear_verified d) a = dget d a).
      { rewrite dget_clear. pose proof (Hslot slot_id_token) as S1. pose proof (Hslot slot_hint) as S2.
        pose proof (Hslot slot_request) as S3.
        rewrite (proj2 (ueqb_neq a slot_id_token)) by (apply S1; cbn; tauto).
        rewrite (proj2 (ueqb_neq a slot_hint)) by (apply S2; cbn; tauto).
        rewrite (proj2 (ueqb_neq a slot_request)) by (apply S3; cbn; tauto). reflexivity. }
      apply hint_step_ok in H2. destruct H2 as [[th [idt [_ [_ [_ ->]]]]]|[_ ->]]; [|assumption].
      rewrite dget_dset_other; [assumption|]. apply Hslot. cbn. tauto. }
    rewrite Hget. destruct Ht as [Hm _].
    destruct (dget d a) as [v|] eqn:Ev.
    + exists v. split; [reflexivity|]. destruct (truthy v) eqn:Et.
      * right. intro He. apply truthy_empty in He. congruence.
      * destruct (p_typ s) eqn:Ety; try (left; assumption); exfalso; apply (Hm a); exists s;
          (repeat split; auto); intros [w [Hw Hg]]; rewrite Ev in Hw; injection Hw as <-;
          (destruct Hg as [Hg|Hg]; [congruence|]); apply Hg; apply truthy_empty; assumption.
    + exfalso. apply (Hm a). exists s. repeat split; auto. intros [w [Hw _]]. congruence.
  - intros t Hq. destruct (c42 _ _ _ _ _ _ _ Hc H0 Hq) as [ro [G1 [_ [_ [G2 _]]]]]. eauto.
Qed.
