(** What verify() may change. *)
From Coq Require Import List NArith ZArith Bool String.
From Verif Require Import Base.Ustr Base.UstrLemmas Model.Cls Model.Value Model.Pspec Model.Tables Model.Message Model.Env Model.Verify
  Spec.MessageSpec Spec.VerifySpec Spec.AgainSpec Spec.FrameSpec
  Proofs.ValueLemmas Proofs.TypeLemmas Proofs.MessageLemmas Proofs.VerifyLemmas Proofs.ResponseLemmas Proofs.OtherVerify Proofs.ClassVerify
  Proofs.OrderLemmas Proofs.AgainLemmas.
Import ListNotations.
Open Scope list_scope.
Open Scope N_scope.

Section SameBut.
  Variable P : ustr -> Prop.
  Definition kept (p : ustr -> bool) (d : dict value) := filter (fun kv => negb (p (fst kv))) d.
  Lemma same_kept : forall p, (forall k, p k = true <-> P k) -> forall d d', only_changed P d d' <-> kept p d = kept p d'.
  Proof.
    intros p Hp d d'. assert (N : forall k, p k = false <-> ~ P k).
    { intro k. rewrite <- Hp. destruct (p k); intuition congruence. }
    split.
    - induction 1 as [|k v d d' Hk H IH|k v d d' Hk H IH|k v d d' Hk H IH]; cbn [kept filter fst]; unfold kept in *; [reflexivity| | |].
      + rewrite (proj2 (N k) Hk). cbn [negb]. rewrite IH. reflexivity.
      + rewrite (proj2 (Hp k) Hk). exact IH.
      + rewrite (proj2 (Hp k) Hk). exact IH.
    - revert d'. induction d as [|[k v] d IH]; intros d' H.
      + induction d' as [|[k v] d' IH']; [constructor|]. unfold kept in H. cbn [filter fst] in H.
        destruct (p k) eqn:E; cbn [negb] in H; [|discriminate]. apply SbRight; [apply Hp, E|apply IH', H].
      + unfold kept in H. cbn [filter fst] in H. destruct (p k) eqn:E; cbn [negb] in H.
        * apply SbLeft; [apply Hp, E|apply IH, H].
        * induction d' as [|[k' v'] d' IH']; [discriminate|]. cbn [filter fst] in H. destruct (p k') eqn:E'; cbn [negb] in H.
          -- apply SbRight; [apply Hp, E'|apply IH', H].
          -- injection H as <- <- H. apply SbBoth; [apply N, E|apply IH, H].
  Qed.
End SameBut.

(** it is enough to look at a decidable set *)
Definition frame (W : list ustr) (d d' : dict value) : Prop := kept (fun k => umem k W) d = kept (fun k => umem k W) d'.
Lemma frame_refl : forall W d, frame W d d. Proof. reflexivity. Qed.
Lemma frame_trans : forall W a b c, frame W a b -> frame W b c -> frame W a c. Proof. unfold frame. congruence. Qed.
Lemma frame_dset : forall W d k v, In k W -> frame W d (dset d k v).
Proof.
  intros W d k v H. apply umem_In in H. unfold frame, kept. induction d as [|[k' v'] d IH]; cbn [dset].
  - cbn [filter fst]. rewrite H. reflexivity.
  - destruct (ueqb k k') eqn:E; cbn [filter fst].
    + apply ueqb_eq in E. subst k'. rewrite H. reflexivity.
    + destruct (umem k' W); cbn [negb]; [exact IH|rewrite IH; reflexivity].
Qed.
Lemma frame_ddel : forall W d k, In k W -> frame W d (ddel d k).
Proof.
  intros W d k H. apply umem_In in H. unfold frame, kept, ddel. induction d as [|[k' v'] d IH]; [reflexivity|]. cbn [filter fst].
  destruct (ueqb k k') eqn:E; cbn [negb].
  - apply ueqb_eq in E. subst k'. rewrite H. cbn [negb]. exact IH.
  - cbn [filter fst]. destruct (umem k' W); cbn [negb]; [exact IH|rewrite IH; reflexivity].
Qed.
Lemma frame_setitem : forall W C d k v d' r, In k W -> setitem C d k v = (d', r) -> frame W d d'.
Proof.
  intros W C d k v d' r H Hs. unfold setitem in Hs.
  repeat match type of Hs with context [match ?x with _ => _ end] => destruct x end; injection Hs as <- <-;
    first [apply frame_refl|apply frame_dset, H].
Qed.
Lemma frame_clear : forall W d, incl verified_names W -> frame W d (clear_verified d).
Proof.
  intros W d H. unfold clear_verified.
  eapply frame_trans; [|apply frame_ddel, H; vm_compute; tauto]. eapply frame_trans; [|apply frame_ddel, H; vm_compute; tauto].
  apply frame_ddel, H. vm_compute; tauto.
Qed.
Lemma frame_idt : forall W E i K C ch claim d d' r, In (verified_claim_name claim) W ->
  verify_id_token E i K C ch claim d = (d', r) -> frame W d d'.
Proof.
  intros W E i K C ch claim d d' r H Hv. unfold verify_id_token in Hv.
  destruct (check_id_token _ _ _ _ _ _) as [[idt|]|e]; try (injection Hv as <- <-; apply frame_refl).
  destruct (setitem C d (verified_claim_name claim) _) as [d1 [x|e]] eqn:Es; cbn [andthen] in Hv.
  - apply (frame_setitem W _ _ _ _ _ _ H) in Es. destruct (to_dict _ _); injection Hv as <- <-; exact Es.
  - apply (frame_setitem W _ _ _ _ _ _ H) in Es. injection Hv as <- <-. exact Es.
Qed.
Lemma frame_with : forall W E K C ch d d' r, In (u "__verified_id_token") W -> with_id_token E K C ch d = (d', r) -> frame W d d'.
Proof.
  intros W E K C ch d d' r H Hv. unfold with_id_token in Hv. destruct (dhas d (u "id_token")); [|injection Hv as <- <-; apply frame_refl].
  eapply frame_idt; [|exact Hv]. exact H.
Qed.
Lemma frame_request : forall W E K C args d d' r, dget d (u "request") = None ->
  request_step E K C args d = (d', r) -> frame W d d'.
Proof. intros W E K C args d d' r H Hs. unfold request_step in Hs. rewrite H in Hs. injection Hs as <- <-. apply frame_refl. Qed.
Lemma frame_hint : forall W E K C args d d' r, In (u "verified_id_token_hint") W -> hint_step E K C args d = (d', r) -> frame W d d'.
Proof.
  intros W E K C args d d' r H Hs. unfold hint_step in Hs.
  destruct (dget d (u "id_token_hint")) as [[]|]; try (injection Hs as <- <-; apply frame_refl).
  destruct (from_jwt _ _ _ _ _ _ _) as [[idt h]|e]; [|injection Hs as <- <-; apply frame_refl]. eapply frame_setitem; eassumption.
Qed.
Lemma frame_enc : forall W C p d d' r, In (p ++ u "_enc") W -> enc_default C p d = (d', r) -> frame W d d'.
Proof.
  intros W C p d d' r H Hs. unfold enc_default in Hs.
  destruct (if _ && _ then setitem C d (p ++ u "_enc") _ else _) as [d1 [x|e]] eqn:E1; cbn [andthen] in Hs.
  - assert (F : frame W d d1).
    { destruct (_ && _) in E1; [eapply frame_setitem; [|exact E1]; exact H|injection E1 as <- <-; apply frame_refl]. }
    destruct (dhas d1 (p ++ u "_enc") && negb (dhas d1 (p ++ u "_alg"))); injection Hs as <- <-; exact F.
  - destruct (_ && _) in E1; [|discriminate]. injection Hs as <- <-. eapply frame_setitem; [|exact E1]; exact H.
Qed.

(** the lists by kind *)
Definition kind_written (k : vkind) : list ustr :=
  match k with
  | KTokenResponse | KOidcAuthzResponse | KEndSession => verified_names
  | KOidcAuthzRequest => u "verified_id_token_hint" :: verified_names
  | KWithIdToken => [u "__verified_id_token"]
  | KBackChannel => [u "__verified_logout_token"]
  | KRegistration => [u "request_object_encryption_enc"; u "id_token_encrypted_response_enc"; u "userinfo_encrypted_response_enc"]
  | KIdaClaims => [u "verified_claims"]
  | _ => []
  end.
Definition may_writeb (c : cls) (k : ustr) : bool := existsb (fun bn => subclass c (fst bn) && umem k (snd bn)) written.
Lemma may_writeb_iff : forall c k, may_writeb c k = true <-> may_write c k.
Proof.
  intros c k. unfold may_writeb. rewrite existsb_exists. split.
  - intros ([b ns] & H1 & H2). apply andb_true_iff in H2. cbn [fst snd] in H2. rewrite umem_In in H2. exists b, ns. tauto.
  - intros (b & ns & H1 & H2 & H3). exists (b, ns). split; [exact H1|]. cbn [fst snd]. rewrite H2. apply umem_In, H3.
Qed.
Lemma kind_may_write : forall c k, In k (kind_written (vkind_of c)) -> may_write c k.
Proof.
  intros c k H. apply may_writeb_iff. assert (F : forallb (may_writeb c) (kind_written (vkind_of c)) = true) by (destruct c; vm_compute; reflexivity).
  rewrite forallb_forall in F. apply F, H.
Qed.

Theorem frame_all : forall E K hdr c d d' r, verify E K hdr c d = (d', r) -> (takes_request c = true -> dget d (u "request") = None) ->
  frame (kind_written (vkind_of c)) d d'.
Proof.
  intros E K hdr c d d' r H Hr.
  assert (Rt : In (vkind_of c) [KOidcAuthzRequest; KJar; KPar] -> dget d (u "request") = None).
  { intro Hk. apply Hr, kind_request, Hk. }
  assert (Ev : vkind_of c = KEvidence -> d' = d).
  { intro Hk. destruct (evidence_kind E K hdr c d Hk) as [H1 _]. rewrite H in H1. exact H1. }
  set (W := kind_written (vkind_of c)) in *.
  assert (Hc : forall A (x : res A) y f, checked x y f = (d', r) -> d' = y \/ f y = (d', r)).
  { intros A x y f X. unfold checked in X. destruct x; [right; exact X|left; congruence]. }
  unfold verify in H. destruct (vkind_of c) eqn:Ek; unfold pure in H; try (injection H as <- _; apply frame_refl).
  - unfold jar_verify in H. rewrite Rt in H by (cbn [In]; tauto). destruct (dhas d _); injection H as <- _; apply frame_refl.
  - unfold par_verify in H. rewrite Rt in H by (cbn [In]; tauto). injection H as <- _; apply frame_refl.
  - apply Hc in H. destruct H as [->|H]; [apply frame_refl|]. eapply frame_trans; [apply frame_clear, incl_refl|].
    eapply frame_with; [|exact H]. vm_compute; tauto.
  - apply Hc in H. destruct H as [->|H]; [apply frame_refl|]. eapply frame_trans; [apply frame_clear, incl_refl|]. cbv zeta in H.
    assert (F : forall ch, with_id_token E K (cdef c) ch (clear_verified d) = (d', r) -> frame W (clear_verified d) d').
    { intros ch X. eapply frame_with; [|exact X]. vm_compute; tauto. }
    destruct (dget (clear_verified d) (u "aud")) as [aud|]; [|eapply F, H].
    destruct (kget K (u "client_id")) as [ci|]; [|eapply F, H].
    destruct (not_in ci aud) as [[|]|e]; [injection H as <- _; apply frame_refl|eapply F, H|injection H as <- _; apply frame_refl].
  - apply Hc in H. destruct H as [->|H]; [apply frame_refl|]. cbv zeta in H.
    eapply frame_trans; [apply (frame_clear W); intros x Hx; right; exact Hx|].
    destruct (authz_args K (clear_verified d)) as [args|e]; [|injection H as <- _; apply frame_refl].
    assert (Hq : dget (clear_verified d) (u "request") = None) by (rewrite dget_clear; apply Rt; cbn [In]; tauto).
    unfold request_step in H. rewrite Hq in H. cbn [andthen] in H.
    destruct (hint_step E K (cdef c) args (clear_verified d)) as [d3 [y|e]] eqn:Eh; cbn [andthen] in H; injection H as <- _;
      (eapply frame_hint; [|exact Eh]; left; reflexivity).
  - unfold registration_verify in H. apply Hc in H. destruct H as [->|H]; [apply frame_refl|].
    apply Hc in H. destruct H as [->|H]; [apply frame_refl|].
    destruct (enc_default (cdef c) (u "request_object_encryption") d) as [d1 [x|e]] eqn:E1; cbn [andthen] in H;
      (apply (frame_enc W) in E1; [|left; reflexivity]); [|injection H as <- _; exact E1].
    destruct (enc_default (cdef c) (u "id_token_encrypted_response") d1) as [d2 [y|e]] eqn:E2; cbn [andthen] in H;
      (apply (frame_enc W) in E2; [|right; left; reflexivity]); [|injection H as <- _; eapply frame_trans; eassumption].
    destruct (enc_default (cdef c) (u "userinfo_encrypted_response") d2) as [d3 [z|e]] eqn:E3; cbn [andthen] in H;
      (apply (frame_enc W) in E3; [|right; right; left; reflexivity]); injection H as <- _;
      (eapply frame_trans; [eassumption|eapply frame_trans; eassumption]).
  - unfold mwit_verify in H. apply Hc in H. destruct H as [->|H]; [apply frame_refl|]. eapply frame_with; [|exact H]. left; reflexivity.
  - unfold end_session_verify in H. apply Hc in H. destruct H as [->|H]; [apply frame_refl|]. cbv zeta in H.
    eapply frame_trans; [apply frame_clear, incl_refl|].
    destruct (dget (clear_verified d) (u "id_token_hint")) as [h|]; [|injection H as <- _; apply frame_refl].
    destruct (do t <- py_str_e E h; _) as [[idt hd]|e]; [|injection H as <- _; apply frame_refl].
    destruct (verify_id_token E 1 K (cdef c) false (u "id_token_hint") (clear_verified d)) as [d2 [ok|e]] eqn:E2; cbn [andthen] in H;
      (apply (frame_idt W) in E2; [|right; left; reflexivity]); [|injection H as <- _; exact E2].
    destruct ok; [|injection H as <- _; exact E2].
    destruct (setitem (cdef c) d2 _ _) as [d3 [z|e]] eqn:E3; cbn [andthen] in H;
      (apply (frame_setitem W) in E3; [|right; left; reflexivity]); injection H as <- _; eapply frame_trans; eassumption.
  - unfold backchannel_verify in H. apply Hc in H. destruct H as [->|H]; [apply frame_refl|].
    destruct (getitem d (u "logout_token")) as [v|e]; [|injection H as <- _; apply frame_refl].
    destruct (do t <- py_str_e E v; _) as [[t hd]|e]; [|injection H as <- _; apply frame_refl].
    destruct (logout_token_verify E K _ hd t) as [[|]|e]; try (injection H as <- _; apply frame_refl).
    destruct (setitem (cdef c) d _ _) as [d3 [z|e]] eqn:E3; cbn [andthen] in H;
      (apply (frame_setitem W) in E3; [|left; reflexivity]); [destruct (to_dict _ t)|]; injection H as <- _; exact E3.
  - rewrite (Ev eq_refl). apply frame_refl.
  - unfold ida_claims_verify in H. destruct (verify_base (cdef c) d); [|injection H as <- _; apply frame_refl]. cbv zeta in H.
    destruct (truthy _); [|injection H as <- _; apply frame_refl].
    destruct (match get d (u "verified_claims") VNone with VDict kws => _ | _ => _ end) as [m|e]; [|injection H as <- _; apply frame_refl].
    destruct (request_verify _ _ m); [|injection H as <- _; apply frame_refl].
    destruct (setitem (cdef c) d _ _) as [d3 [z|e]] eqn:E3;
      (apply (frame_setitem W) in E3; [|left; reflexivity]); injection H as <- _; exact E3.
Qed.

Theorem c128 : forall E K hdr c d d' r, verify E K hdr c d = (d', r) -> (takes_request c = true -> dget d (u "request") = None) ->
  only_changed (may_write c) d d'.
Proof.
  intros E K hdr c d d' r H Hr. pose proof (frame_all E K hdr c d d' r H Hr) as F.
  assert (S : only_changed (fun k => In k (kind_written (vkind_of c))) d d').
  { apply (same_kept (fun k => In k (kind_written (vkind_of c))) (fun k => umem k (kind_written (vkind_of c)))); [intro k; apply umem_In|exact F]. }
  clear - S. assert (D : forall k, may_write c k \/ ~ may_write c k). { intro k. rewrite <- may_writeb_iff. destruct (may_writeb c k); auto. }
  induction S as [|k v d d' Hk H IH|k v d d' Hk H IH|k v d d' Hk H IH].
  - constructor.
  - destruct (D k); [apply SbLeft; [assumption|apply SbRight; assumption]|apply SbBoth; assumption].
  - apply SbLeft; [apply kind_may_write, Hk|exact IH].
  - apply SbRight; [apply kind_may_write, Hk|exact IH].
Qed.

(** values that are there stay *)
Lemma only_changed_get : forall P d d' k, only_changed P d d' -> ~ P k -> dget d' k = dget d k.
Proof.
  intros P d d' k S Hk. induction S as [|k' v d d' Hk' H IH|k' v d d' Hk' H IH|k' v d d' Hk' H IH]; [reflexivity| | |]; cbn [dget];
    destruct (ueqb k k') eqn:E; try assumption; try reflexivity; apply ueqb_eq in E; subst k'; contradiction.
Qed.
Lemma enc_keeps : forall C p d d' r k v, enc_default C p d = (d', r) -> dget d k = Some v -> dget d' k = Some v.
Proof.
  intros C p d d' r k v Hs Hk. unfold enc_default in Hs.
  destruct (if dhas d (p ++ u "_alg") && negb (dhas d (p ++ u "_enc")) then setitem C d (p ++ u "_enc") _ else _) as [d1 [x|e]] eqn:E1; cbn [andthen] in Hs.
  - assert (F : dget d1 k = Some v).
    { destruct (dhas d (p ++ u "_alg") && negb (dhas d (p ++ u "_enc"))) eqn:Eb in E1; [|congruence].
      apply andb_true_iff in Eb. destruct Eb as [_ Eb]. apply negb_true_iff, dhas_false in Eb.
      unfold setitem in E1. repeat match type of E1 with context [match ?x with _ => _ end] => destruct x end;
        inversion E1; subst; try assumption; (destruct (list_eq_dec N.eq_dec k (p ++ u "_enc")) as [->|Hn]; [congruence|]);
        rewrite dget_dset_other by congruence; assumption. }
    destruct (dhas d1 (p ++ u "_enc") && negb (dhas d1 (p ++ u "_alg"))); injection Hs as <- <-; exact F.
  - destruct (dhas d (p ++ u "_alg") && negb (dhas d (p ++ u "_enc"))) eqn:Eb in E1; [|discriminate]. injection Hs as <- <-.
    unfold setitem in E1. repeat match type of E1 with context [match ?x with _ => _ end] => destruct x end; try discriminate;
      inversion E1; subst; assumption.
Qed.
Theorem c128_registration : forall E K hdr d d' r k v, verify E K hdr C_oidc_RegistrationRequest d = (d', r) ->
  dget d k = Some v -> dget d' k = Some v.
Proof.
  intros E K hdr d d' r k v H Hk. change (registration_verify (cdef C_oidc_RegistrationRequest) d = (d', r)) in H.
  unfold registration_verify in H.
  destruct (verify_base _ d); cbn [checked] in H; [|congruence].
  destruct (match dget d (u "initiate_login_uri") with None => _ | Some _ => _ end); cbn [checked] in H; [|congruence].
  set (C := cdef C_oidc_RegistrationRequest) in *. clearbody C.
  destruct (enc_default C (u "request_object_encryption") d) as [d1 [x|e]] eqn:E1; cbn [andthen] in H;
    apply (enc_keeps _ _ _ _ _ _ _ E1) in Hk; [|congruence].
  destruct (enc_default C (u "id_token_encrypted_response") d1) as [d2 [y|e]] eqn:E2; cbn [andthen] in H;
    apply (enc_keeps _ _ _ _ _ _ _ E2) in Hk; [|congruence].
  destruct (enc_default C (u "userinfo_encrypted_response") d2) as [d3 [z|e]] eqn:E3; cbn [andthen] in H;
    apply (enc_keeps _ _ _ _ _ _ _ E3) in Hk; congruence.
Qed.

(** a request object that is read replaces the request, whatever the outcome *)
Lemma setitem_any : forall C d k v d' r k', setitem C d k v = (d', r) -> k' <> k -> dget d' k' = dget d k'.
Proof.
  intros C d k v d' r k' H Hk. unfold setitem in H.
  repeat match type of H with context [match ?x with _ => _ end] => destruct x end; injection H as <- <-;
    first [reflexivity|apply dget_dset_other, Hk].
Qed.
Lemma frame_same : forall c W d d', vkind_of c = KOidcAuthzRequest -> W = kind_written KOidcAuthzRequest -> frame W d d' -> only_changed (may_write c) d d'.
Proof.
  intros c W d d' Hk -> F.
  assert (S : only_changed (fun k => In k (kind_written (vkind_of c))) d d').
  { rewrite Hk. apply (same_kept (fun k => In k (kind_written KOidcAuthzRequest)) (fun k => umem k (kind_written KOidcAuthzRequest))); [intro k; apply umem_In|exact F]. }
  clear - S. assert (D : forall k, may_write c k \/ ~ may_write c k). { intro k. rewrite <- may_writeb_iff. destruct (may_writeb c k); auto. }
  induction S as [|k v d d' Hk H IH|k v d d' Hk H IH|k v d d' Hk H IH].
  - constructor.
  - destruct (D k); [apply SbLeft; [assumption|apply SbRight; assumption]|apply SbBoth; assumption].
  - apply SbLeft; [apply kind_may_write, Hk|exact IH].
  - apply SbRight; [apply kind_may_write, Hk|exact IH].
Qed.
Theorem c128_object : forall E K hdr c d d' r, subclass c C_oidc_AuthorizationRequest = true -> verify E K hdr c d = (d', r) ->
  only_changed (may_write c) d d' \/
  exists t ro, dget d (u "request") = Some (VStr t) /\ decoded E 0 C_oidc_OpenIDRequest t ro /\ signature_checked E t /\
    forall k, ~ may_write c k -> dget d' k = dget ro k.
Proof.
  intros E K hdr c d d' r Hc H. pose proof (oidc_request_kind c Hc) as Hk.
  assert (W : forall k, In k (kind_written KOidcAuthzRequest) -> may_write c k). { intros k Hi. apply kind_may_write. rewrite Hk. exact Hi. }
  unfold verify in H. rewrite Hk in H. unfold oidc_authz_request_verify in H.
  assert (R : only_changed (may_write c) d d) by (eapply frame_same; [exact Hk|reflexivity|apply frame_refl]).
  destruct (verify_base (cdef c) d); cbn [checked] in H; [|injection H as <- _; auto]. cbv zeta in H.
  assert (F1 : frame (kind_written KOidcAuthzRequest) d (clear_verified d)) by (apply frame_clear; intros k Hi; right; exact Hi).
  destruct (authz_args K (clear_verified d)) as [args|e]; [|injection H as <- _; left; eapply frame_same; eauto].
  destruct (request_step E K (cdef c) args (clear_verified d)) as [d2 [[]|e]] eqn:E1; cbn [andthen] in H.
  - apply request_step_ok in E1. destruct E1 as [[t [ro [G1 [G2 [G3 [G4 G5]]]]]]|[_ ->]].
    + right. exists t, ro. rewrite dget_clear in G1. split; [exact G1|]. split; [assumption|]. split; [assumption|].
      intros k Hn. assert (N1 : k <> u "__verified_request") by (intros ->; apply Hn, W; vm_compute; tauto).
      assert (N2 : k <> u "verified_id_token_hint") by (intros ->; apply Hn, W; vm_compute; tauto).
      rewrite <- G5 by exact N1. unfold hint_step in H.
      destruct (dget d2 (u "id_token_hint")) as [[]|]; cbn [andthen] in H; try (injection H as <- _; reflexivity).
      destruct (from_jwt _ _ _ _ _ _ _) as [[idt h]|e]; cbn [andthen] in H; [|injection H as <- _; reflexivity].
      destruct (setitem (cdef c) d2 (u "verified_id_token_hint") _) as [d3 [x|e]] eqn:E3; cbn [andthen] in H; injection H as <- _;
        apply (setitem_any _ _ _ _ _ _ _ E3), N2.
    + left. eapply frame_same; [exact Hk|reflexivity|]. eapply frame_trans; [exact F1|].
      destruct (hint_step E K (cdef c) args (clear_verified d)) as [d3 [x|e]] eqn:E3; cbn [andthen] in H; injection H as <- _;
        (eapply frame_hint; [|exact E3]; left; reflexivity).
  - injection H as <- _. unfold request_step in E1.
    destruct (dget (clear_verified d) (u "request")) as [[]|] eqn:Er; try discriminate.
    destruct (from_jwt _ _ _ _ _ _ _) as [[ro h]|e1] eqn:Ej; [|injection E1 as <- _; left; eapply frame_same; eauto].
    destruct (ro_log _ ro) as [x|e1]; [|injection E1 as <- _; left; eapply frame_same; eauto].
    rewrite (setitem_slot c) in E1 by (try (left; reflexivity); vm_compute; tauto). discriminate.
Qed.
Theorem c128_secured : forall E K hdr c d d' e,
  subclass c C_oauth2_JWTSecuredAuthorizationRequest = true \/ subclass c C_oauth2_PushedAuthorizationRequest = true ->
  verify E K hdr c d = (d', Err e) -> only_changed (fun k => k = u "__verified_request") d d'.
Proof.
  intros E K hdr c d d' e Hc H.
  assert (F : frame [u "__verified_request"] d d').
  { assert (J : forall tr r, jar_merge E K (cdef c) tr d r = (d', Err e) -> frame [u "__verified_request"] d d').
    { intros tr r J. unfold jar_merge in J. cbv zeta in J.
      destruct (do t <- py_str_e E r; _) as [[req h]|e1].
      - rewrite (setitem_slot c) in J by (vm_compute; tauto). discriminate.
      - injection J as <- _. unfold clear. apply frame_ddel. left. reflexivity. }
    assert (Kd : vkind_of c = KJar \/ vkind_of c = KPar).
    { clear - Hc. destruct c; try (left; reflexivity); try (right; reflexivity); exfalso; destruct Hc as [Hc|Hc]; vm_compute in Hc; discriminate. }
    unfold verify in H. destruct Kd as [-> | ->] in H.
    - unfold jar_verify in H. destruct (dget d (u "request")) as [v|]; [eapply J, H|].
      destruct (dhas d (u "request_uri")); [discriminate|]. injection H as <- _. apply frame_refl.
    - unfold par_verify in H. destruct (dget d (u "request")) as [v|]; [eapply J, H|discriminate]. }
  apply (same_kept (fun k => k = u "__verified_request") (fun k => umem k [u "__verified_request"])); [|exact F].
  intro k. rewrite umem_In. cbn [In]. intuition congruence.
Qed.
