(** verify() once more on the same message. *)
From Coq Require Import List NArith ZArith Bool String.
From Verif Require Import Base.Ustr Base.UstrLemmas Model.Cls Model.Value Model.Pspec Model.Tables Model.Message Model.Env Model.Verify
  Spec.MessageSpec Spec.VerifySpec Spec.AgainSpec
  Proofs.ValueLemmas Proofs.IdaLemmas Proofs.VerifyLemmas Proofs.ResponseLemmas Proofs.OtherVerify Proofs.OrderLemmas.
Import ListNotations.
Open Scope list_scope.
Open Scope N_scope.

Notation slot_logout := (u "__verified_logout_token").
Notation slots := [slot_id_token; slot_request; slot_hint; u "verified_id_token_hint"; slot_logout].

(** equal but for the places of verified content *)
Definition agree (d1 d2 : dict value) : Prop := forall k, ~ In k slots -> dget d1 k = dget d2 k.

Lemma dset_dset : forall (d : dict value) k v, dset (dset d k v) k v = dset d k v.
Proof. intros d k v. apply dset_get_id, dget_dset_same. Qed.
Lemma agree_dset : forall d k v, In k slots -> agree (dset d k v) d.
Proof. intros d k v Hk x Hx. apply dget_dset_other. intros ->. contradiction. Qed.
Lemma agree_clear : forall d, agree (clear_verified d) d.
Proof.
  intros d x Hx. rewrite dget_clear. cbn [In] in Hx.
  destruct (ueqb x slot_id_token) eqn:E1; [apply ueqb_eq in E1; exfalso; apply Hx; auto|].
  destruct (ueqb x slot_hint) eqn:E2; [apply ueqb_eq in E2; exfalso; apply Hx; auto|].
  destruct (ueqb x slot_request) eqn:E3; [apply ueqb_eq in E3; exfalso; apply Hx; auto|]. reflexivity.
Qed.
Lemma agree_trans : forall d1 d2 d3, agree d1 d2 -> agree d2 d3 -> agree d1 d3.
Proof. intros d1 d2 d3 H1 H2 k Hk. rewrite (H1 k Hk). apply H2, Hk. Qed.
Lemma agree_refl : forall d, agree d d.
Proof. intros d k _. reflexivity. Qed.

Lemma mapM_in : forall {A B} (f g : A -> res B) l, (forall x, In x l -> f x = g x) -> mapM f l = mapM g l.
Proof.
  intros A B f g l. induction l as [|x l IH]; intro H; [reflexivity|]. cbn [mapM]. rewrite (H x) by (left; reflexivity).
  rewrite IH by (intros y Hy; apply H; right; exact Hy). reflexivity.
Qed.
Lemma base_agree : forall c d1 d2, agree d1 d2 -> verify_base (cdef c) d1 = verify_base (cdef c) d2.
Proof.
  intros c d1 d2 H. unfold verify_base. rewrite (mapM_in _ (fun ks => verify_param (cdef c) d2 (fst ks) (snd ks))); [reflexivity|].
  intros [k s] Hin. cbn [fst snd].
  assert (Hk : ~ In k slots).
  { intro Hk. apply (slot_undeclared c) in Hk. apply dget_None in Hk. apply Hk. apply in_map_iff. exists (k, s). auto. }
  unfold verify_param, get, dhas. rewrite (H k Hk). reflexivity.
Qed.
Ltac outside := cbn [In]; intros Hslot; repeat (destruct Hslot as [Hslot|Hslot]; [discriminate Hslot|]); exact Hslot.
Lemma response_agree : forall c d1 d2, agree d1 d2 -> response_verify (cdef c) d1 = response_verify (cdef c) d2.
Proof. intros c d1 d2 H. unfold response_verify. rewrite (base_agree c _ _ H), (H (u "error_description")) by outside. reflexivity. Qed.
Lemma authz_response_agree : forall K c d1 d2, agree d1 d2 -> authz_response_verify K (cdef c) d1 = authz_response_verify K (cdef c) d2.
Proof.
  intros K c d1 d2 H. unfold authz_response_verify.
  rewrite (response_agree c _ _ H), (H (u "client_id")), (H (u "iss")) by outside. reflexivity.
Qed.
Lemma hashes_agree : forall E d1 d2 idt hdr, agree d1 d2 -> hashes_check E d1 idt hdr = hashes_check E d2 idt hdr.
Proof.
  intros E d1 d2 idt hdr H. unfold hashes_check, hash_check.
  rewrite (H (u "access_token")), (H (u "code")) by outside. reflexivity.
Qed.
Lemma check_agree : forall E i K ch claim d1 d2, agree d1 d2 -> ~ In claim slots ->
  check_id_token E i K ch claim d1 = check_id_token E i K ch claim d2.
Proof.
  intros E i K ch claim d1 d2 H Hc. unfold check_id_token, getitem. rewrite (H claim Hc).
  destruct (dget d2 claim) as [v|]; cbn [bind]; [|reflexivity].
  destruct (e_jws E v) as [[tok|]|e]; cbn [bind]; try reflexivity.
  destruct (alg_check K tok) as [signed|]; cbn [bind]; [|reflexivity].
  destruct (t_body tok) as [body|]; cbn [bind]; [|reflexivity].
  destruct (issuer_check E K signed body) as [x|]; cbn [bind]; [|reflexivity].
  destruct (py_str_e E v) as [t|]; cbn [bind]; [|reflexivity].
  destruct (from_jwt E i _ t _ _ _) as [[idt hdr]|]; cbn [bind]; [|reflexivity].
  destruct (idtoken_verify E K _ idt) as [ok|]; cbn [bind]; [|reflexivity].
  rewrite (hashes_agree E d1 d2 idt hdr H). reflexivity.
Qed.

Lemma clear_absent : forall d : dict value, dget d slot_id_token = None -> dget d slot_hint = None -> dget d slot_request = None ->
  clear_verified d = d.
Proof.
  intros d H1 H2 H3. unfold clear_verified.
  change (verified_claim_name (u "id_token")) with slot_id_token.
  change (verified_claim_name (u "id_token_hint")) with slot_hint.
  change (verified_claim_name (u "request")) with slot_request.
  assert (G : forall k (e : dict value), dget e k = None -> ddel e k = e) by (intros k e He; apply ddel_id, dget_None, He).
  rewrite (G slot_id_token d H1), (G slot_hint d H2), (G slot_request d H3). reflexivity.
Qed.
Lemma clear_clear : forall d, clear_verified (clear_verified d) = clear_verified d.
Proof. intro d. apply clear_absent; rewrite dget_clear; reflexivity. Qed.
Lemma ddel_app : forall (d e : dict value) k, ddel (d ++ e) k = ddel d k ++ ddel e k.
Proof. intros d e k. unfold ddel. apply filter_app. Qed.
Lemma clear_set : forall d k v, In k [slot_id_token; slot_hint; slot_request] ->
  clear_verified (dset (clear_verified d) k v) = clear_verified d.
Proof.
  intros d k v Hk.
  rewrite dset_new.
  2: { apply dget_None. rewrite dget_clear. cbn [In] in Hk. destruct Hk as [<-|[<-|[<-|[]]]]; reflexivity. }
  transitivity (clear_verified (clear_verified d)); [|apply clear_clear].
  unfold clear_verified at 1. rewrite !ddel_app.
  assert (G : ddel (ddel (ddel [(k, v)] (verified_claim_name (u "id_token"))) (verified_claim_name (u "id_token_hint")))
    (verified_claim_name (u "request")) = []).
  { cbn [In] in Hk. destruct Hk as [<-|[<-|[<-|[]]]]; reflexivity. }
  rewrite G, app_nil_r. reflexivity.
Qed.

(** what verify_id_token leaves *)
Lemma id_token_state : forall E i K c ch claim d d' r, In (verified_claim_name claim) slots ->
  verify_id_token E i K (cdef c) ch claim d = (d', r) ->
  d' = d \/ exists idt, d' = dset d (verified_claim_name claim) (VMsg C_oidc_IdToken idt).
Proof.
  intros E i K c ch claim d d' r Hc H. unfold verify_id_token in H.
  destruct (check_id_token E i K ch claim d) as [[idt|]|e]; [|left; congruence|left; congruence].
  rewrite setitem_slot in H by exact Hc. cbn [andthen] in H. right. exists idt.
  destruct (to_dict (cdef C_oidc_IdToken) idt); congruence.
Qed.
Lemma with_state : forall E K c ch d d' r, with_id_token E K (cdef c) ch d = (d', r) ->
  d' = d \/ exists idt, d' = dset d slot_id_token (VMsg C_oidc_IdToken idt).
Proof.
  intros E K c ch d d' r H. unfold with_id_token in H. destruct (dhas d (u "id_token")); [|left; congruence].
  apply id_token_state in H; [exact H|left; reflexivity].
Qed.
Lemma with_again : forall E K c ch d d' r, with_id_token E K (cdef c) ch d = (d', r) -> with_id_token E K (cdef c) ch d' = (d', r).
Proof.
  intros E K c ch d d' r H. unfold with_id_token in *. destruct (dhas d (u "id_token")) eqn:Eh; [|injection H as <- <-; rewrite Eh; reflexivity].
  assert (A : agree d' d).
  { destruct (id_token_state _ _ _ _ _ _ _ _ _ (or_introl eq_refl) H) as [->|[idt ->]]; [apply agree_refl|apply agree_dset; left; reflexivity]. }
  assert (Eh' : dhas d' (u "id_token") = true) by (unfold dhas in *; rewrite (A (u "id_token")) by outside; exact Eh). rewrite Eh'.
  unfold verify_id_token in *. rewrite (check_agree E 0%nat K ch (u "id_token") d' d A) by outside.
  destruct (check_id_token E 0%nat K ch (u "id_token") d) as [[idt|]|e]; [|injection H as <- <-; reflexivity|injection H as <- <-; reflexivity].
  change (verified_claim_name (u "id_token")) with slot_id_token in *.
  rewrite setitem_slot in * by (left; reflexivity). cbn [andthen] in *.
  destruct (to_dict (cdef C_oidc_IdToken) idt); injection H as <- <-; rewrite dset_dset; reflexivity.
Qed.
(** the same after the verified content has been removed *)
Lemma with_state_clear : forall E K c ch d d' r, with_id_token E K (cdef c) ch (clear_verified d) = (d', r) ->
  clear_verified d' = clear_verified d /\ agree d' d.
Proof.
  intros E K c ch d d' r H. apply with_state in H. destruct H as [->|[idt ->]].
  - split; [apply clear_clear|apply agree_clear].
  - split; [apply clear_set; left; reflexivity|].
    eapply agree_trans; [apply agree_dset; left; reflexivity|apply agree_clear].
Qed.

Lemma token_again : forall E K c d d' r, oidc_token_response_verify E K (cdef c) d = (d', r) -> oidc_token_response_verify E K (cdef c) d' = (d', r).
Proof.
  intros E K c d d' r H. unfold oidc_token_response_verify in *. destruct (response_verify (cdef c) d) as [x|e] eqn:Er; cbn [checked] in H.
  - destruct (with_state_clear _ _ _ _ _ _ _ H) as [H1 H2]. rewrite (response_agree c d' d H2), Er. cbn [checked]. rewrite H1. exact H.
  - injection H as <- <-. rewrite Er. reflexivity.
Qed.
Lemma authz_again : forall E K c d d' r, oidc_authz_response_verify E K (cdef c) d = (d', r) -> oidc_authz_response_verify E K (cdef c) d' = (d', r).
Proof.
  intros E K c d d' r H. unfold oidc_authz_response_verify in *. destruct (authz_response_verify K (cdef c) d) as [x|e] eqn:Er; cbn [checked] in H.
  2: { injection H as <- <-. rewrite Er. reflexivity. }
  cbv zeta in *.
  assert (G : clear_verified d' = clear_verified d /\ agree d' d).
  { destruct (dget (clear_verified d) (u "aud")) as [a|], (kget K (u "client_id")) as [k|]; try (eapply with_state_clear; exact H).
    destruct (not_in k a) as [[|]|e]; try (eapply with_state_clear; exact H); injection H as <- <-; (split; [apply clear_clear|apply agree_clear]). }
  destruct G as [H1 H2]. rewrite (authz_response_agree K c d' d H2), Er. cbn [checked]. rewrite H1. exact H.
Qed.
Lemma mwit_again : forall sup E K c d d' r, (forall d1 d2, agree d1 d2 -> sup (cdef c) d1 = sup (cdef c) d2) ->
  mwit_verify sup E K (cdef c) d = (d', r) -> mwit_verify sup E K (cdef c) d' = (d', r).
Proof.
  intros sup E K c d d' r Hs H. unfold mwit_verify in *. destruct (sup (cdef c) d) as [x|e] eqn:Er; cbn [checked] in H.
  - assert (A : agree d' d).
    { destruct (with_state _ _ _ _ _ _ _ H) as [->|[idt ->]]; [apply agree_refl|apply agree_dset; left; reflexivity]. }
    rewrite (Hs d' d A), Er. cbn [checked]. eapply with_again, H.
  - injection H as <- <-. rewrite Er. reflexivity.
Qed.

(** authorization requests without a request object *)
Lemma args_agree : forall K d1 d2, agree d1 d2 -> authz_args K d1 = authz_args K d2.
Proof. intros K d1 d2 H. unfold authz_args. rewrite (H (u "client_id")) by outside. reflexivity. Qed.
Lemma rules_agree : forall K d1 d2, agree d1 d2 -> request_rules K d1 = request_rules K d2.
Proof.
  intros K d1 d2 H. unfold request_rules, get.
  rewrite (H (u "response_type")), (H (u "nonce")), (H (u "scope")), (H (u "prompt")) by outside. reflexivity.
Qed.
Lemma request_none : forall E K C args d, dget d (u "request") = None -> request_step E K C args d = (d, Ok tt).
Proof. intros E K C args d H. unfold request_step. rewrite H. reflexivity. Qed.
Lemma hint_state : forall E K c args d d' r, hint_step E K (cdef c) args d = (d', r) ->
  d' = d \/ exists idt, d' = dset d (u "verified_id_token_hint") (VMsg C_oidc_IdToken idt).
Proof.
  intros E K c args d d' r H. unfold hint_step in H. destruct (dget d (u "id_token_hint")) as [[| | | |t| | |]|]; try (left; congruence).
  destruct (from_jwt E 1 _ t _ _ _) as [[idt h]|e]; [|left; congruence].
  rewrite setitem_slot in H by (cbn [In]; tauto). right. exists idt. congruence.
Qed.
Lemma hint_again : forall E K c args d d' r, hint_step E K (cdef c) args d = (d', r) -> hint_step E K (cdef c) args d' = (d', r).
Proof.
  intros E K c args d d' r H.
  assert (A : agree d' d).
  { destruct (hint_state _ _ _ _ _ _ _ H) as [->|[idt ->]]; [apply agree_refl|apply agree_dset; cbn [In]; tauto]. }
  unfold hint_step in *. rewrite (A (u "id_token_hint")) by outside.
  destruct (dget d (u "id_token_hint")) as [[| | | |t| | |]|]; try (injection H as <- <-; reflexivity).
  destruct (from_jwt E 1 _ t _ _ _) as [[idt h]|e]; [|injection H as <- <-; reflexivity].
  rewrite setitem_slot in * by (cbn [In]; tauto). injection H as <- <-. rewrite dset_dset. reflexivity.
Qed.
Lemma request_again : forall E K c d d' r, dget d (u "request") = None ->
  oidc_authz_request_verify E K (cdef c) d = (d', r) -> oidc_authz_request_verify E K (cdef c) d' = (d', r).
Proof.
  intros E K c d d' r Hr H. unfold oidc_authz_request_verify in *. destruct (verify_base (cdef c) d) as [x|e] eqn:Eb; cbn [checked] in H.
  2: { injection H as <- <-. rewrite Eb. reflexivity. }
  cbv zeta in *.
  assert (Hr1 : dget (clear_verified d) (u "request") = None) by (rewrite (agree_clear d) by outside; exact Hr).
  assert (G : d' = clear_verified d \/ exists idt, d' = dset (clear_verified d) (u "verified_id_token_hint") (VMsg C_oidc_IdToken idt)).
  { destruct (authz_args K (clear_verified d)) as [args|e]; [|left; congruence].
    rewrite (request_none _ _ _ _ _ Hr1) in H. cbn [andthen] in H.
    destruct (hint_step E K (cdef c) args (clear_verified d)) as [d3 [y|e]] eqn:Eh; cbn [andthen] in H; injection H as <- <-; eapply hint_state, Eh. }
  assert (A : agree d' (clear_verified d)).
  { destruct G as [->|[idt ->]]; [apply agree_refl|apply agree_dset; cbn [In]; tauto]. }
  assert (Hc : clear_verified d' = d').
  { apply clear_absent; destruct G as [->|[idt ->]]; rewrite ?dget_dset_other by discriminate; rewrite dget_clear; reflexivity. }
  rewrite (base_agree c d' d) by (eapply agree_trans; [exact A|apply agree_clear]). rewrite Eb. cbn [checked]. rewrite Hc.
  rewrite (args_agree K d' _ A). destruct (authz_args K (clear_verified d)) as [args|e]; [|injection H as <- <-; reflexivity].
  assert (Hr2 : dget d' (u "request") = None) by (rewrite (A (u "request")) by outside; exact Hr1).
  rewrite (request_none _ _ _ _ _ Hr1) in H. rewrite (request_none _ _ _ _ _ Hr2). cbn [andthen] in *.
  destruct (hint_step E K (cdef c) args (clear_verified d)) as [d3 [y|e]] eqn:Eh; cbn [andthen] in H.
  - injection H as -> <-. rewrite (hint_again _ _ _ _ _ _ _ Eh). reflexivity.
  - injection H as -> <-. rewrite (hint_again _ _ _ _ _ _ _ Eh). reflexivity.
Qed.

(** logout *)
Lemma end_session_again : forall E K c d d' r, end_session_verify E K (cdef c) d = (d', r) -> end_session_verify E K (cdef c) d' = (d', r).
Proof.
  intros E K c d d' r H. unfold end_session_verify in *. destruct (verify_base (cdef c) d) as [x|e] eqn:Eb; cbn [checked] in H.
  2: { injection H as <- <-. rewrite Eb. reflexivity. }
  cbv zeta in *.
  assert (G : clear_verified d' = clear_verified d /\ agree d' d).
  { assert (Z : forall v, clear_verified (dset (clear_verified d) slot_hint v) = clear_verified d /\ agree (dset (clear_verified d) slot_hint v) d).
    { intro v. split; [apply clear_set; cbn [In]; tauto|]. eapply agree_trans; [apply agree_dset; cbn [In]; tauto|apply agree_clear]. }
    assert (Z0 : clear_verified (clear_verified d) = clear_verified d /\ agree (clear_verified d) d) by (split; [apply clear_clear|apply agree_clear]).
    destruct (dget (clear_verified d) (u "id_token_hint")) as [h|]; [|injection H as <- <-; exact Z0].
    destruct (do t <- py_str_e E h; _) as [[idt h0]|e]; [|injection H as <- <-; exact Z0].
    destruct (verify_id_token E 1 K (cdef c) false (u "id_token_hint") (clear_verified d)) as [d2 [ok|e]] eqn:Ev; cbn [andthen] in H.
    - assert (S2 : d2 = clear_verified d \/ exists i, d2 = dset (clear_verified d) slot_hint (VMsg C_oidc_IdToken i)).
      { eapply id_token_state; [|exact Ev]. cbn [In]. tauto. }
      destruct ok.
      + change (verified_claim_name (u "id_token_hint")) with slot_hint in H. rewrite setitem_slot in H by (cbn [In]; tauto).
        cbn [andthen] in H. injection H as <- <-. destruct S2 as [->|[i ->]]; [apply Z|].
        assert (Y : forall (m : dict value) k v w, dset (dset m k v) k w = dset m k w).
        { clear. intros m k v w. induction m as [|[k0 v0] m IH]; cbn [dset]; [rewrite ueqb_refl; reflexivity|].
          destruct (ueqb k k0) eqn:E; cbn [dset]; rewrite E; [reflexivity|]. rewrite IH. reflexivity. }
        rewrite Y. apply Z.
      + injection H as <- <-. destruct S2 as [->|[i ->]]; [exact Z0|apply Z].
    - injection H as <- <-. assert (S2 : d2 = clear_verified d \/ exists i, d2 = dset (clear_verified d) slot_hint (VMsg C_oidc_IdToken i)).
      { eapply id_token_state; [|exact Ev]. cbn [In]. tauto. }
      destruct S2 as [->|[i ->]]; [exact Z0|apply Z]. }
  destruct G as [H1 H2]. rewrite (base_agree c d' d H2), Eb. cbn [checked]. rewrite H1. exact H.
Qed.
Lemma backchannel_again : forall E K c d d' r, backchannel_verify E K (cdef c) d = (d', r) -> backchannel_verify E K (cdef c) d' = (d', r).
Proof.
  intros E K c d d' r H. unfold backchannel_verify in *. destruct (verify_base (cdef c) d) as [x|e] eqn:Eb; cbn [checked] in H.
  2: { injection H as <- <-. rewrite Eb. reflexivity. }
  assert (A : agree d' d).
  { destruct (getitem d (u "logout_token")) as [v|e]; [|injection H as <- <-; apply agree_refl].
    destruct (do t <- py_str_e E v; _) as [[t h]|e]; [|injection H as <- <-; apply agree_refl].
    destruct (logout_token_verify E K _ h t) as [[|]|e]; try (injection H as <- <-; apply agree_refl).
    change (verified_claim_name (u "logout_token")) with slot_logout in H. rewrite setitem_slot in H by (cbn [In]; tauto). cbn [andthen] in H.
    destruct (to_dict (cdef C_session_LogoutToken) t); injection H as <- <-; apply agree_dset; cbn [In]; tauto. }
  rewrite (base_agree c d' d A), Eb. cbn [checked]. unfold getitem in *. rewrite (A (u "logout_token")) by outside.
  destruct (dget d (u "logout_token")) as [v|]; [|injection H as <- <-; reflexivity].
  destruct (do t <- py_str_e E v; _) as [[t h]|e]; [|injection H as <- <-; reflexivity].
  destruct (logout_token_verify E K _ h t) as [[|]|e]; try (injection H as <- <-; reflexivity).
  change (verified_claim_name (u "logout_token")) with slot_logout in *. rewrite setitem_slot in * by (cbn [In]; tauto). cbn [andthen] in *.
  destruct (to_dict (cdef C_session_LogoutToken) t); injection H as <- <-; rewrite dset_dset; reflexivity.
Qed.

(** registration *)
Definition filled (p : ustr) (d : dict value) : Prop := dhas d (p ++ u "_alg") = true -> dhas d (p ++ u "_enc") = true.
Lemma enc_step_id : forall p d, filled p d -> enc_step p d = d.
Proof.
  intros p d H. unfold enc_step. destruct (dhas d (p ++ u "_alg")) eqn:E; [|reflexivity]. rewrite (H E). reflexivity.
Qed.
Lemma enc_step_fills : forall p d, In p enc_prefixes -> filled p (enc_step p d).
Proof.
  intros p d Hp Ha. rewrite (dhas_get _ _ d) in Ha by (apply enc_step_alg; exact Hp). apply dhas_true. rewrite enc_step_get, ueqb_refl, Ha.
  destruct (dget d (p ++ u "_enc")); eauto.
Qed.
Lemma enc_step_keeps : forall p q d, In p enc_prefixes -> In q enc_prefixes -> filled q d -> filled q (enc_step p d).
Proof.
  intros p q d Hp Hq H Ha. rewrite (dhas_get _ _ d) in Ha by (apply enc_step_alg; assumption).
  specialize (H Ha). apply dhas_true in H. destruct H as [v H]. apply dhas_true. rewrite enc_step_get, H. destruct (ueqb _ _); eauto.
Qed.
Definition lone (p : ustr) (d : dict value) : bool := dhas d (p ++ u "_enc") && negb (dhas d (p ++ u "_alg")).
Lemma enc_step_lone : forall p q d, In p enc_prefixes -> In q enc_prefixes -> lone q (enc_step p d) = lone q d.
Proof.
  intros p q d Hp Hq. unfold lone. rewrite (dhas_get _ (enc_step p d) d (q ++ u "_alg")) by (apply enc_step_alg; assumption).
  destruct (dhas d (q ++ u "_alg")) eqn:Ea; [rewrite !andb_false_r; reflexivity|]. rewrite !andb_true_r. apply dhas_get.
  rewrite enc_step_get. destruct (ueqb (q ++ u "_enc") (p ++ u "_enc")) eqn:E; [|reflexivity].
  apply ueqb_eq in E. apply app_inv_tail in E. subst q. rewrite Ea. destruct (dget d (p ++ u "_enc")); reflexivity.
Qed.
Lemma enc_step_table : forall p d, In p enc_prefixes -> table_ok RR d -> table_ok RR (enc_step p d).
Proof.
  intros p d Hp [H1 H2]. split.
  - intros a (s & Hs & Ha & Hr & Hn). apply (H1 a). exists s. repeat (split; [assumption|]). intros (v & Hv & Hg). apply Hn. exists v.
    split; [|exact Hg]. rewrite enc_step_get, Hv. destruct (ueqb _ _); reflexivity.
  - intros a (s & v & al & Hs & Ha & Hv & Hg & Hal & Hno). apply (H2 a). exists s, v, al. repeat (split; [assumption|]).
    split; [|auto]. rewrite enc_step_get in Hv. destruct (ueqb a (p ++ u "_enc")) eqn:E; [|exact Hv].
    exfalso. apply ueqb_eq in E. subst a. cbn [In enc_prefixes] in Hp.
    destruct Hp as [<-|[<-|[<-|[]]]]; vm_compute in Hal; discriminate.
Qed.
Lemma registration_lone : forall d, registration_verify RR d =
  match verify_base RR d with
  | Err e => (d, Err e)
  | Ok _ =>
      match (match dget d (u "initiate_login_uri") with
           | None => Ok tt
           | Some (VStr s) => raise_if (negb (startswith (u "https:") s)) EValueError
           | Some _ => Err EAttributeError
           end) with
      | Err e => (d, Err e)
      | Ok _ =>
          if lone P1 d then (enc_step P1 d, Err EMissingRequiredAttribute)
          else if lone P2 d then (enc_step P2 (enc_step P1 d), Err EMissingRequiredAttribute)
          else if lone P3 d then (enc_all d, Err EMissingRequiredAttribute)
          else (enc_all d, match dget d (u "token_endpoint_auth_signing_alg") with
                           | Some v => if py_eq v (VStr (u "none")) then Err EValueError else Ok true
                           | None => Ok true
                           end)
      end
  end.
Proof. exact registration_eq. Qed.
Lemma registration_again : forall d d' r, registration_verify RR d = (d', r) -> registration_verify RR d' = (d', r).
Proof.
  intros d d' r H. rewrite registration_lone in H. rewrite registration_lone.
  destruct (verify_base RR d) as [b|e] eqn:Eb; [|injection H as <- <-; rewrite Eb; reflexivity].
  apply verify_base_true in Eb. destruct Eb as [Ht _].
  assert (I1 : In P1 enc_prefixes) by (cbn; tauto). assert (I2 : In P2 enc_prefixes) by (cbn; tauto).
  assert (I3 : In P3 enc_prefixes) by (cbn; tauto).
  assert (T : forall x, table_ok RR x -> verify_base RR x = Ok true) by (intros x Hx; apply verify_base_true; auto).
  assert (K : forall x p k, In p enc_prefixes -> (forall q, In q enc_prefixes -> k <> q ++ u "_enc") -> dget (enc_step p x) k = dget x k).
  { intros x p k Hp Hk. rewrite enc_step_get. rewrite (proj2 (ueqb_neq _ _) (Hk p Hp)). reflexivity. }
  assert (N1 : forall q, In q enc_prefixes -> u "initiate_login_uri" <> q ++ u "_enc").
  { intros q Hq. cbn [In enc_prefixes] in Hq. destruct Hq as [<-|[<-|[<-|[]]]]; discriminate. }
  assert (N2 : forall q, In q enc_prefixes -> u "token_endpoint_auth_signing_alg" <> q ++ u "_enc").
  { intros q Hq. cbn [In enc_prefixes] in Hq. destruct Hq as [<-|[<-|[<-|[]]]]; discriminate. }
  destruct (match dget d (u "initiate_login_uri") with None => _ | Some _ => _ end) as [x|e] eqn:Eu.
  2: { injection H as <- <-. rewrite (T d Ht), Eu. reflexivity. }
  assert (L : forall p q y, In p enc_prefixes -> In q enc_prefixes -> lone p y = true -> q = p -> enc_step q y = y).
  { intros p q y Hp Hq Hl ->. unfold lone in Hl. apply andb_true_iff in Hl. apply enc_step_id. intros _. tauto. }
  destruct (lone P1 d) eqn:L1.
  { injection H as <- <-. rewrite (L P1 P1 d I1 I1 L1 eq_refl). rewrite (T d Ht), Eu, L1. rewrite (L P1 P1 d I1 I1 L1 eq_refl). reflexivity. }
  set (d1 := enc_step P1 d) in *. assert (T1 : table_ok RR d1) by (apply enc_step_table; assumption).
  set (d2 := enc_step P2 d1) in *. assert (T2 : table_ok RR d2) by (apply enc_step_table; assumption).
  assert (F1 : filled P1 d1) by (apply enc_step_fills; exact I1).
  assert (F12 : filled P1 d2) by (apply enc_step_keeps; assumption).
  assert (F2 : filled P2 d2) by (apply enc_step_fills; exact I2).
  assert (U2 : dget d2 (u "initiate_login_uri") = dget d (u "initiate_login_uri")) by (unfold d2, d1; rewrite !K by assumption; reflexivity).
  assert (L12 : lone P1 d2 = false) by (unfold d2, d1; rewrite !enc_step_lone by assumption; exact L1).
  assert (L22 : lone P2 d2 = lone P2 d) by (unfold d2, d1; rewrite !enc_step_lone by assumption; reflexivity).
  destruct (lone P2 d) eqn:L2.
  { injection H as <- <-. rewrite (T d2 T2), U2, Eu, L12, L22. rewrite (enc_step_id P1 d2 F12), (enc_step_id P2 d2 F2). reflexivity. }
  assert (Ed : enc_all d = enc_step P3 d2) by reflexivity.
  set (d3 := enc_all d) in *. clearbody d3. subst d3.
  set (d3 := enc_step P3 d2) in *. assert (T3 : table_ok RR d3) by (apply enc_step_table; assumption).
  assert (F3 : filled P3 d3) by (apply enc_step_fills; exact I3).
  assert (F13 : filled P1 d3) by (apply enc_step_keeps; assumption).
  assert (F23 : filled P2 d3) by (apply enc_step_keeps; assumption).
  assert (U3 : dget d3 (u "initiate_login_uri") = dget d (u "initiate_login_uri")) by (unfold d3; rewrite K by assumption; exact U2).
  assert (V3 : dget d3 (u "token_endpoint_auth_signing_alg") = dget d (u "token_endpoint_auth_signing_alg"))
    by (unfold d3, d2, d1; rewrite !K by assumption; reflexivity).
  assert (L13 : lone P1 d3 = false) by (unfold d3; rewrite enc_step_lone by assumption; exact L12).
  assert (L23 : lone P2 d3 = false) by (unfold d3; rewrite enc_step_lone by assumption; exact L22).
  assert (L33 : lone P3 d3 = lone P3 d) by (unfold d3, d2, d1; rewrite !enc_step_lone by assumption; reflexivity).
  assert (Y : enc_all d3 = d3) by (unfold enc_all; rewrite (enc_step_id P1 d3 F13), (enc_step_id P2 d3 F23); apply enc_step_id, F3).
  assert (E' : d' = d3) by (destruct (lone P3 d); injection H as <- <-; reflexivity).
  rewrite E' in *. rewrite (T d3 T3), U3, Eu, L13, L23, L33, Y, V3. destruct (lone P3 d); exact H.
Qed.

Lemma kind_request : forall c, In (vkind_of c) [KOidcAuthzRequest; KJar; KPar] -> takes_request c = true.
Proof. intros c H. destruct c; first [reflexivity|exfalso; vm_compute in H; repeat destruct H as [H|H]; discriminate H || exact H]. Qed.
Lemma kind_ida : forall c, vkind_of c = KIdaClaims -> subclass c C_ida_IDAClaimsRequest = true.
Proof. intros c H. destruct c; first [reflexivity|exfalso; vm_compute in H; discriminate]. Qed.
Lemma kind_registration : forall c, vkind_of c = KRegistration -> c = C_oidc_RegistrationRequest.
Proof. intros c H. destruct c; first [reflexivity|exfalso; vm_compute in H; discriminate]. Qed.

Theorem again : forall E K hdr c d d' r, subclass c C_ida_IDAClaimsRequest = false ->
  (takes_request c = true -> dget d (u "request") = None) ->
  verify E K hdr c d = (d', r) -> verify E K hdr c d' = (d', r).
Proof.
  intros E K hdr c d d' r Hi Hr H.
  assert (Ev : vkind_of c = KEvidence -> d' = d).
  { intro Hk. destruct (evidence_kind E K hdr c d Hk) as [H1 _]. rewrite H in H1. exact H1. }
  unfold verify in *. destruct (vkind_of c) eqn:Ek; unfold pure in *; try (injection H as <- <-; reflexivity).
  - unfold jar_verify in *. rewrite Hr in H by (apply kind_request; rewrite Ek; cbn [In]; tauto).
    destruct (dhas d (u "request_uri")) eqn:Eu; injection H as <- <-; rewrite Hr, Eu by (apply kind_request; rewrite Ek; cbn [In]; tauto); reflexivity.
  - unfold par_verify in *. rewrite Hr in H by (apply kind_request; rewrite Ek; cbn [In]; tauto).
    injection H as <- <-. rewrite Hr by (apply kind_request; rewrite Ek; cbn [In]; tauto). reflexivity.
  - eapply token_again, H.
  - eapply authz_again, H.
  - eapply request_again, H. apply Hr, kind_request. rewrite Ek. cbn [In]. tauto.
  - apply kind_registration in Ek. subst c. eapply registration_again, H.
  - eapply mwit_again, H. intros d1 d2 A. unfold mwit_super. destruct (subclass c C_oauth2_ResponseMessage); [apply response_agree, A|apply base_agree, A].
  - eapply end_session_again, H.
  - eapply backchannel_again, H.
  - rewrite (Ev eq_refl) in *. exact H.
  - apply kind_ida in Ek. congruence.
Qed.

(** requests with a request object *)
Lemma no_request_no_slot : forall E K hdr c d d' b, subclass c C_oidc_AuthorizationRequest = true -> dget d (u "request") = None ->
  verify E K hdr c d = (d', Ok b) -> dget d' slot_request = None.
Proof.
  intros E K hdr c d d' b Hc Hr H. unfold verify in H. rewrite (oidc_request_kind c Hc) in H. unfold oidc_authz_request_verify in H.
  destruct (verify_base (cdef c) d) as [x|e]; cbn [checked] in H; [|discriminate]. cbv zeta in H.
  destruct (authz_args K (clear_verified d)) as [args|e]; [|discriminate].
  rewrite request_none in H by (rewrite (agree_clear d) by outside; exact Hr). cbn [andthen] in H.
  destruct (hint_step E K (cdef c) args (clear_verified d)) as [d3 [y|e]] eqn:Eh; cbn [andthen] in H; [|discriminate].
  injection H as <- _. destruct (hint_state _ _ _ _ _ _ _ Eh) as [->|[idt ->]]; rewrite ?dget_dset_other by discriminate; rewrite dget_clear; reflexivity.
Qed.
Theorem request_forgotten : forall E K hdr c d d' t, subclass c C_oidc_AuthorizationRequest = true ->
  verify E K hdr c d = (d', Ok true) -> dget d (u "request") = Some (VStr t) -> dget d' (u "request") = None ->
  dget d' slot_request <> None /\ forall d'' b, verify E K hdr c d' = (d'', Ok b) -> dget d'' slot_request = None.
Proof.
  intros E K hdr c d d' t Hc H Ht Hr. destruct (c42 E K hdr c d d' t Hc H Ht) as (ro & _ & _ & Hs & _). split; [rewrite Hs; discriminate|].
  intros d'' b H2. eapply no_request_no_slot; [exact Hc|exact Hr|exact H2].
Qed.
Theorem secured_once : forall E K hdr d d' r, verify E K hdr C_oauth2_JWTSecuredAuthorizationRequest d = (d', Ok true) ->
  dget d (u "request") = Some r -> dget d' (u "request") = None -> dget d' (u "request_uri") = None ->
  verify E K hdr C_oauth2_JWTSecuredAuthorizationRequest d' = (d', Err EMissingAttribute).
Proof. intros E K hdr d d' r _ _ H1 H2. apply c27_neither; assumption. Qed.
