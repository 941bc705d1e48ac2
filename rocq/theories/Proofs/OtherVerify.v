(** Registration, provider configuration, claims matching, pack, logout, factories. *)
From Coq Require Import List NArith ZArith QArith Bool String Lia ZifyBool ZifyN.
From Verif Require Import Base.Ustr Base.UstrLemmas Model.Cls Model.Value Model.Pspec Model.Tables Model.Json
  Model.Message Model.Env Model.Verify Spec.MessageSpec Spec.VerifySpec
  Proofs.ValueLemmas Proofs.MessageLemmas Proofs.EncodeLemmas Proofs.VerifyLemmas Proofs.DateLemmas Proofs.TokenLemmas
  Proofs.IdTokenLemmas Proofs.ResponseLemmas.
Import ListNotations.
Open Scope list_scope.
Open Scope N_scope.

(** ** RegistrationRequest *)
Notation RR := (cdef C_oidc_RegistrationRequest).

Lemma enc_key_str : forall p d s, In p enc_prefixes ->
  setitem RR d (p ++ u "_enc") (VStr s) = (dset d (p ++ u "_enc") (VStr s), Ok tt).
Proof.
  intros p d s Hp. cbn [In enc_prefixes] in Hp.
  destruct Hp as [<-|[<-|[<-|[]]]]; unfold setitem;
    match goal with |- context [dget (cd_param RR) ?k] =>
      let v := eval vm_compute in (dget (cd_param RR) k) in change (dget (cd_param RR) k) with v end; reflexivity.
Qed.

Definition enc_step (p : ustr) (d : dict value) : dict value :=
  if dhas d (p ++ u "_alg") && negb (dhas d (p ++ u "_enc")) then dset d (p ++ u "_enc") (VStr (u "A128CBC-HS256")) else d.

Lemma enc_default_eq : forall p d, In p enc_prefixes -> enc_default RR p d =
  (enc_step p d, if dhas d (p ++ u "_enc") && negb (dhas d (p ++ u "_alg")) then Err EMissingRequiredAttribute else Ok tt).
Proof.
  intros p d Hp. unfold enc_default, enc_step.
  assert (Hne : (p ++ u "_alg") <> (p ++ u "_enc")).
  { intro H. apply app_inv_head in H. discriminate. }
  destruct (dhas d (p ++ u "_alg")) eqn:Ea, (dhas d (p ++ u "_enc")) eqn:Ee; cbn [andb negb].
  - cbn [andthen]. rewrite Ea, Ee. reflexivity.
  - rewrite enc_key_str by assumption. cbn [andthen].
    assert (H1 : dhas (dset d (p ++ u "_enc") (VStr (u "A128CBC-HS256"))) (p ++ u "_alg") = true).
    { apply dhas_true. rewrite dget_dset_other by assumption. apply dhas_true. assumption. }
    rewrite H1. rewrite andb_false_r. reflexivity.
  - cbn [andthen]. rewrite Ea, Ee. reflexivity.
  - cbn [andthen]. rewrite Ea, Ee. reflexivity.
Qed.

Lemma enc_step_get : forall p d k, dget (enc_step p d) k =
  if ueqb k (p ++ u "_enc") then
    match dget d k with Some v => Some v | None => if dhas d (p ++ u "_alg") then Some (VStr (u "A128CBC-HS256")) else None end
  else dget d k.
Proof.
  intros p d k. unfold enc_step. destruct (ueqb k (p ++ u "_enc")) eqn:Ek.
  - apply ueqb_eq in Ek. subst k. destruct (dget d (p ++ u "_enc")) as [v|] eqn:Ee.
    + assert (H : dhas d (p ++ u "_enc") = true) by (apply dhas_true; eauto). rewrite H, andb_false_r. assumption.
    + assert (H : dhas d (p ++ u "_enc") = false) by (apply dhas_false; assumption). rewrite H.
      destruct (dhas d (p ++ u "_alg")); cbn [andb negb]; [apply dget_dset_same|assumption].
  - destruct (dhas d (p ++ u "_alg") && negb (dhas d (p ++ u "_enc"))); [|reflexivity].
    rewrite dget_dset_other; [reflexivity|]. apply ueqb_neq. assumption.
Qed.

Lemma dhas_get : forall A (d d' : dict A) k, dget d k = dget d' k -> dhas d k = dhas d' k.
Proof.
  intros A d d' k H. destruct (dhas d' k) eqn:E.
  - apply dhas_true in E. destruct E as [v E]. apply dhas_true. exists v. congruence.
  - apply dhas_false in E. apply dhas_false. congruence.
Qed.

Notation P1 := (u "request_object_encryption").
Notation P2 := (u "id_token_encrypted_response").
Notation P3 := (u "userinfo_encrypted_response").

Definition enc_all (d : dict value) : dict value := enc_step P3 (enc_step P2 (enc_step P1 d)).

Lemma enc_all_filled : forall d, enc_filled d (enc_all d).
Proof.
  intro d. unfold enc_filled, enc_all. split.
  - intros p Hp. cbn [In enc_prefixes] in Hp. destruct Hp as [<-|[<-|[<-|[]]]].
    + rewrite (enc_step_get P3). change (ueqb (P1 ++ u "_enc") (P3 ++ u "_enc")) with false. cbv iota.
      rewrite (enc_step_get P2). change (ueqb (P1 ++ u "_enc") (P2 ++ u "_enc")) with false. cbv iota.
      rewrite (enc_step_get P1). rewrite ueqb_refl. reflexivity.
    + rewrite (enc_step_get P3). change (ueqb (P2 ++ u "_enc") (P3 ++ u "_enc")) with false. cbv iota.
      rewrite (enc_step_get P2). rewrite ueqb_refl.
      rewrite (enc_step_get P1). change (ueqb (P2 ++ u "_enc") (P1 ++ u "_enc")) with false. cbv iota.
      rewrite (dhas_get _ (enc_step P1 d) d (P2 ++ u "_alg")); [reflexivity|].
      rewrite (enc_step_get P1). reflexivity.
    + rewrite (enc_step_get P3). rewrite ueqb_refl.
      assert (Q : forall k, k <> P1 ++ u "_enc" -> k <> P2 ++ u "_enc" -> dget (enc_step P2 (enc_step P1 d)) k = dget d k).
      { intros k H1 H2. apply ueqb_neq in H1, H2. rewrite !enc_step_get, H1, H2. reflexivity. }
      rewrite Q by discriminate. rewrite (dhas_get _ _ d (P3 ++ u "_alg")); [reflexivity|]. apply Q; discriminate.
  - intros k Hk.
    assert (H1 : ueqb k (P1 ++ u "_enc") = false) by (apply ueqb_neq; apply Hk; cbn; tauto).
    assert (H2 : ueqb k (P2 ++ u "_enc") = false) by (apply ueqb_neq; apply Hk; cbn; tauto).
    assert (H3 : ueqb k (P3 ++ u "_enc") = false) by (apply ueqb_neq; apply Hk; cbn; tauto).
    rewrite !enc_step_get, H1, H2, H3. reflexivity.
Qed.

Lemma enc_step_alg : forall p q d, In p enc_prefixes -> In q enc_prefixes ->
  dget (enc_step p d) (q ++ u "_alg") = dget d (q ++ u "_alg").
Proof.
  intros p q d Hp Hq. rewrite enc_step_get.
  assert (H : ueqb (q ++ u "_alg") (p ++ u "_enc") = false).
  { cbn [In enc_prefixes] in Hp, Hq.
    destruct Hp as [<-|[<-|[<-|[]]]]; destruct Hq as [<-|[<-|[<-|[]]]]; reflexivity. }
  rewrite H. reflexivity.
Qed.
Lemma enc_step_enc : forall p q d, In p enc_prefixes -> In q enc_prefixes -> p <> q ->
  dget (enc_step p d) (q ++ u "_enc") = dget d (q ++ u "_enc").
Proof.
  intros p q d Hp Hq Hn. rewrite enc_step_get.
  assert (H : ueqb (q ++ u "_enc") (p ++ u "_enc") = false).
  { apply ueqb_neq. intro H. apply app_inv_tail in H. congruence. }
  rewrite H. reflexivity.
Qed.

Lemma registration_eq : forall d, registration_verify RR d =
  match verify_base RR d with
  | Err e => (d, Err e)
  | Ok _ =>
      match (match dget d (u "initiate_login_uri") with
           | None => Ok tt
           | Some (VStr s) => raise_if (negb (startswith (u "https:") s)) EValueError
           | Some _ => Err EAttributeError
           end) with
      | Err e => (d, Err e)
      | Ok _ =>
          let bad p := dhas d (p ++ u "_enc") && negb (dhas d (p ++ u "_alg")) in
          if bad P1 then (enc_step P1 d, Err EMissingRequiredAttribute)
          else if bad P2 then (enc_step P2 (enc_step P1 d), Err EMissingRequiredAttribute)
          else if bad P3 then (enc_all d, Err EMissingRequiredAttribute)
          else (enc_all d, match dget d (u "token_endpoint_auth_signing_alg") with
                           | Some v => if py_eq v (VStr (u "none")) then Err EValueError else Ok true
                           | None => Ok true
                           end)
      end
  end.
Proof.
  intro d. unfold registration_verify.
  destruct (verify_base RR d) as [b|e]; cbn [checked]; [|reflexivity].
  match goal with |- checked ?r _ _ = _ => destruct r as [x|e]; cbn [checked]; [|reflexivity] end.
  assert (I1 : In P1 enc_prefixes) by (cbn; tauto). assert (I2 : In P2 enc_prefixes) by (cbn; tauto).
  assert (I3 : In P3 enc_prefixes) by (cbn; tauto).
  cbv zeta. rewrite (enc_default_eq P1 d I1).
  destruct (dhas d (P1 ++ u "_enc") && negb (dhas d (P1 ++ u "_alg"))); cbn [andthen]; [reflexivity|].
  rewrite (enc_default_eq P2 _ I2).
  rewrite (dhas_get _ (enc_step P1 d) d (P2 ++ u "_enc")) by (apply enc_step_enc; [assumption|assumption|discriminate]).
  rewrite (dhas_get _ (enc_step P1 d) d (P2 ++ u "_alg")) by (apply enc_step_alg; assumption).
  destruct (dhas d (P2 ++ u "_enc") && negb (dhas d (P2 ++ u "_alg"))); cbn [andthen]; [reflexivity|].
  rewrite (enc_default_eq P3 _ I3).
  rewrite (dhas_get _ (enc_step P2 (enc_step P1 d)) d (P3 ++ u "_enc")).
  2: { rewrite enc_step_enc by (assumption || discriminate). apply enc_step_enc; (assumption || discriminate). }
  rewrite (dhas_get _ (enc_step P2 (enc_step P1 d)) d (P3 ++ u "_alg")).
  2: { rewrite enc_step_alg by assumption. apply enc_step_alg; assumption. }
  destruct (dhas d (P3 ++ u "_enc") && negb (dhas d (P3 ++ u "_alg"))); cbn [andthen]; [reflexivity|].
  fold (enc_all d). rewrite (proj2 (enc_all_filled d) (u "token_endpoint_auth_signing_alg")); [reflexivity|].
  intros p Hp. cbn [In enc_prefixes] in Hp. destruct Hp as [<-|[<-|[<-|[]]]]; discriminate.
Qed.

Lemma bad_false : forall (d : dict value) p, dhas d (p ++ u "_enc") && negb (dhas d (p ++ u "_alg")) = false <->
  (In (p ++ u "_enc") (map fst d) -> In (p ++ u "_alg") (map fst d)).
Proof.
  intros d p. rewrite <- !dhas_In. destruct (dhas d (p ++ u "_enc")), (dhas d (p ++ u "_alg")); cbn; intuition congruence.
Qed.

Lemma registration_true : forall d d', registration_verify RR d = (d', Ok true) <->
  table_ok RR d /\ registration_ok d /\ d' = enc_all d.
Proof.
  intros d d'. rewrite registration_eq. split.
  - destruct (verify_base RR d) as [b|e] eqn:Eb; [|congruence]. apply verify_base_true in Eb. intro H.
    destruct (match dget d (u "initiate_login_uri") with None => Ok tt | Some (VStr s) => _ | Some _ => _ end) as [x|e] eqn:El; [|congruence].
    cbv zeta in H.
    destruct (dhas d (P1 ++ u "_enc") && negb (dhas d (P1 ++ u "_alg"))) eqn:B1; [congruence|].
    destruct (dhas d (P2 ++ u "_enc") && negb (dhas d (P2 ++ u "_alg"))) eqn:B2; [congruence|].
    destruct (dhas d (P3 ++ u "_enc") && negb (dhas d (P3 ++ u "_alg"))) eqn:B3; [congruence|].
    injection H as <- H. split; [tauto|]. split; [|reflexivity]. constructor.
    + intros v Hv. rewrite Hv in El. destruct v as [| | | |s| | |]; try discriminate. apply raise_if_ok in El.
      destruct El as [El _]. apply negb_false_iff in El. apply startswith_iff in El. destruct El as [r ->]. eauto.
    + intros p Hp. cbn [In enc_prefixes] in Hp. destruct Hp as [<-|[<-|[<-|[]]]]; apply bad_false; assumption.
    + intro Hc. rewrite Hc in H. discriminate.
  - intros [Ht [[G1 G2 G3] ->]].
    assert (Hb : verify_base RR d = Ok true) by (apply verify_base_true; auto). rewrite Hb.
    assert (Hl : match dget d (u "initiate_login_uri") with
           | None => Ok tt | Some (VStr s) => raise_if (negb (startswith (u "https:") s)) EValueError
           | Some _ => Err EAttributeError end = Ok tt).
    { destruct (dget d (u "initiate_login_uri")) as [v|]; [|reflexivity]. destruct (G1 v eq_refl) as [s ->].
      assert (Hs : startswith (u "https:") (u "https:" ++ s) = true) by (apply startswith_iff; eauto).
      rewrite Hs. reflexivity. }
    rewrite Hl. cbv beta zeta.
    rewrite (proj2 (bad_false d P1)) by (apply G2; cbn; tauto).
    rewrite (proj2 (bad_false d P2)) by (apply G2; cbn; tauto).
    rewrite (proj2 (bad_false d P3)) by (apply G2; cbn; tauto).
    destruct (dget d (u "token_endpoint_auth_signing_alg")) as [v|]; [|reflexivity].
    destruct (py_eq v (VStr (u "none"))) eqn:E; [|reflexivity]. apply py_eq_str_r in E. congruence.
Qed.

Lemma enc_step_id : forall p d, (In (p ++ u "_alg") (map fst d) -> In (p ++ u "_enc") (map fst d)) -> enc_step p d = d.
Proof.
  intros p d H. rewrite <- !dhas_In in H. unfold enc_step. destruct (dhas d (p ++ u "_alg")); [|reflexivity].
  rewrite H by reflexivity. reflexivity.
Qed.

(** the table depends on the values of its parameters only *)
Lemma table_ok_filled : forall d d', enc_filled d d' -> table_ok RR d -> table_ok RR d'.
Proof.
  intros d d' [F1 F2] [T1 T2].
  assert (Req : forall p s, In p enc_prefixes -> In (p ++ u "_enc", s) (cd_param RR) ->
    p_req s = false /\ dget (cd_allowed RR) (p ++ u "_enc") = None).
  { intros p s Hp Hin. cbn [In enc_prefixes] in Hp.
    assert (Hd : dget (cd_param RR) (p ++ u "_enc") = Some s).
    { apply In_dget; [|assumption]. apply Deciders.nodupb_ok. vm_compute. reflexivity. }
    destruct Hp as [<-|[<-|[<-|[]]]]; vm_compute in Hd; injection Hd as <-; split; reflexivity. }
  assert (Dec : forall a, (exists p, In p enc_prefixes /\ a = p ++ u "_enc") \/ dget d' a = dget d a).
  { intro a. destruct (in_dec (list_eq_dec N.eq_dec) a (map (fun p => p ++ u "_enc") enc_prefixes)) as [H|H].
    - left. apply in_map_iff in H. destruct H as [p [<- Hp]]. eauto.
    - right. apply F2. intros p Hp ->. apply H. apply in_map_iff. eauto. }
  split; intro a.
  - intros [s [Hin [Hs [Hq Hno]]]]. destruct (Dec a) as [[p [Hp ->]]|Hg].
    + destruct (Req _ _ Hp Hin). congruence.
    + apply (T1 a). exists s. rewrite Hg in Hno. auto.
  - intros [s [v [al [Hin [Hs [Hv [Hgv [Hal Hn]]]]]]]]. destruct (Dec a) as [[p [Hp ->]]|Hg].
    + destruct (Req _ _ Hp Hin). congruence.
    + apply (T2 a). exists s, v, al. rewrite Hg in Hv. auto 8.
Qed.

Lemma c44 : forall E K hdr d d', verify E K hdr C_oidc_RegistrationRequest d = (d', Ok true) <->
  table_ok RR d /\ registration_ok d /\ d' = enc_all d.
Proof. intros E K hdr d d'. exact (registration_true d d'). Qed.

Lemma c44_accept : forall E K hdr d,
  (exists d', verify E K hdr C_oidc_RegistrationRequest d = (d', Ok true)) <-> table_ok RR d /\ registration_ok d.
Proof.
  intros E K hdr d. split.
  - intros [d' H]. apply c44 in H. tauto.
  - intros [H1 H2]. exists (enc_all d). apply c44. auto.
Qed.

Lemma c44_result : forall E K hdr d d', verify E K hdr C_oidc_RegistrationRequest d = (d', Ok true) ->
  enc_filled d d' /\
  (forall p, In p enc_prefixes -> (In (p ++ u "_alg") (map fst d') <-> In (p ++ u "_enc") (map fst d'))) /\
  verify E K hdr C_oidc_RegistrationRequest d' = (d', Ok true).
Proof.
  intros E K hdr d d' H. apply c44 in H. destruct H as [Ht [Hr ->]].
  pose proof (enc_all_filled d) as F.
  assert (Both : forall p, In p enc_prefixes -> (In (p ++ u "_alg") (map fst (enc_all d)) <-> In (p ++ u "_enc") (map fst (enc_all d)))).
  { intros p Hp. destruct F as [F1 F2].
    assert (Ha : dget (enc_all d) (p ++ u "_alg") = dget d (p ++ u "_alg")).
    { apply F2. intros q Hq. cbn [In enc_prefixes] in Hp, Hq.
      destruct Hp as [<-|[<-|[<-|[]]]]; destruct Hq as [<-|[<-|[<-|[]]]]; discriminate. }
    rewrite <- !dhas_In. rewrite (dhas_get _ _ _ _ Ha). pose proof (g_enc d Hr p Hp) as G. rewrite <- !dhas_In in G.
    split.
    - intro A. apply dhas_true. rewrite (F1 p Hp). rewrite A.
      destruct (dget d (p ++ u "_enc")); eauto.
    - intro B. apply dhas_true in B. destruct B as [v B]. rewrite (F1 p Hp) in B.
      destruct (dget d (p ++ u "_enc")) eqn:Ee.
      + apply G. apply dhas_true. eauto.
      + destruct (dhas d (p ++ u "_alg")); [reflexivity|discriminate]. }
  split; [assumption|]. split; [assumption|]. apply c44.
  split; [exact (table_ok_filled _ _ F Ht)|]. destruct F as [F1 F2]. destruct Hr as [G1 G2 G3].
  split.
  - constructor.
    + rewrite F2; [assumption|]. intros p Hp. cbn [In enc_prefixes] in Hp. destruct Hp as [<-|[<-|[<-|[]]]]; discriminate.
    + intros p Hp. apply Both. assumption.
    + rewrite F2; [assumption|]. intros p Hp. cbn [In enc_prefixes] in Hp. destruct Hp as [<-|[<-|[<-|[]]]]; discriminate.
  - set (e := enc_all d) in *. unfold enc_all.
    rewrite (enc_step_id P1 e) by (apply Both; cbn; tauto).
    rewrite (enc_step_id P2 e) by (apply Both; cbn; tauto).
    rewrite (enc_step_id P3 e) by (apply Both; cbn; tauto). reflexivity.
Qed.

(** ** RegistrationResponse *)
Lemma c45 : forall C d b, registration_response_verify C d = Ok b <->
  (response_ok C d /\ (In (u "registration_client_uri") (map fst d) <-> In (u "registration_access_token") (map fst d))) /\ b = true.
Proof.
  intros C d b. unfold registration_response_verify. rewrite <- !dhas_In, bind_ok_iff. split.
  - intros [x [Hx H]]. apply response_verify_ok in Hx.
    destruct (dhas d (u "registration_client_uri")), (dhas d (u "registration_access_token")); cbn [xorb] in H;
      try discriminate; (split; [split; [tauto|intuition congruence]|congruence]).
  - intros [[H1 H2] ->]. exists true. split; [apply response_verify_ok; auto|].
    destruct (dhas d (u "registration_client_uri")), (dhas d (u "registration_access_token")); cbn [xorb]; try reflexivity;
      exfalso; intuition discriminate.
Qed.

(** ** provider configuration *)
Lemma in_range : forall n k c, In c (map N.of_nat (seq n k)) <-> N.of_nat n <= c < N.of_nat n + N.of_nat k.
Proof.
  intros n k c. rewrite in_map_iff. split.
  - intros [x [<- Hx]]. apply in_seq in Hx. lia.
  - intro H. exists (N.to_nat c). split; [lia|]. apply in_seq. lia.
Qed.
Lemma scope_charset_iff : forall c, existsb (N.eqb c) scope_charset = true <-> scope_char_but_excl c.
Proof.
  intro c. rewrite existsb_exists. unfold scope_char_but_excl, scope_charset. split.
  - intros [x [Hx He]]. apply N.eqb_eq in He. subst x. rewrite in_app_iff, !in_range in Hx. lia.
  - intro H. exists c. split; [|apply N.eqb_refl]. rewrite in_app_iff, !in_range. lia.
Qed.
Lemma c47_partial : forall s,
  (check_char_set s scope_charset = Ok tt <-> forall c, In c s -> scope_char_but_excl c) /\
  (check_char_set s scope_charset = Err ENotAllowedValue <-> exists c, In c s /\ ~ scope_char_but_excl c).
Proof.
  intro s. unfold check_char_set. destruct (forallb _ s) eqn:E.
  - rewrite forallb_forall in E. split; split; try discriminate.
    + intros _ c Hc. apply scope_charset_iff. auto.
    + reflexivity.
    + intros [c [Hc Hn]]. exfalso. apply Hn, scope_charset_iff. auto.
  - assert (G : exists c, In c s /\ existsb (N.eqb c) scope_charset = false).
    { apply Bool.not_true_iff_false in E. rewrite forallb_forall in E.
      induction s as [|c s IH]; [exfalso; apply E; intros c []|].
      destruct (existsb (N.eqb c) scope_charset) eqn:Ec.
      - destruct IH as [c' [H1 H2]].
        + intro H. apply E. intros x [<-|Hx]; auto.
        + exists c'. split; [right; assumption|assumption].
      - exists c. split; [left; reflexivity|assumption]. }
    destruct G as [c [Hc Hf]]. split; split; try discriminate.
    + intro H. specialize (H c Hc). apply scope_charset_iff in H. congruence.
    + intros _. exists c. split; [assumption|]. rewrite <- scope_charset_iff. congruence.
    + reflexivity.
Qed.

(** urlparse *)
Lemma lstrip_text : forall s, url_text s (url_clean s).
Proof.
  unfold url_clean. induction s as [|c s IH].
  - apply (UtText []). discriminate.
  - cbn [lstrip_by]. unfold c0_or_space at 1. destruct (c <=? 32) eqn:E.
    + apply UtBlank; [lia|exact IH].
    + apply (UtText (c :: s)). intros c' r H. injection H as <- _. lia.
Qed.

Lemma partition1_spec : forall c s a f b, partition1 c s = (a, f, b) ->
  ~ In c a /\ (if f then s = a ++ c :: b else s = a /\ b = []).
Proof.
  intro c. induction s as [|x s IH]; intros a f b H; cbn [partition1] in H.
  - injection H as <- <- <-. auto.
  - destruct (x =? c) eqn:E.
    + injection H as <- <- <-. apply N.eqb_eq in E. subst x. auto.
    + destruct (partition1 c s) as [[a' f'] b'] eqn:Ep. injection H as <- <- <-. destruct (IH _ _ _ eq_refl) as [H1 H2].
      split.
      * intros [->|H]; [rewrite N.eqb_refl in E; discriminate|auto].
      * destruct f'; [subst s; reflexivity|]. destruct H2 as [-> ->]. auto.
Qed.
Lemma uniq_tail : forall (c : N) w z x b, ~ In c w -> ~ In c z -> w ++ c :: z = x ++ c :: b -> b = z.
Proof.
  intro c. induction w as [|y w IH]; intros z x b Hw Hz H.
  - destruct x as [|x0 x]; cbn [app] in H.
    + congruence.
    + injection H as <- H. exfalso. apply Hz. rewrite H. apply in_or_app. right. left. reflexivity.
  - destruct x as [|x0 x]; cbn [app] in H.
    + injection H as <- H. exfalso. apply Hw. left. reflexivity.
    + injection H as <- H. eapply IH; [|exact Hz|exact H]. intro Hi. apply Hw. right. assumption.
Qed.
Lemma absent_tail : forall (c : N) w x b, ~ In c w -> w = x ++ c :: b -> False.
Proof. intros c w x b H ->. apply H. apply in_or_app. right. left. reflexivity. Qed.

Lemma scheme_char_not : forall p, forallb scheme_char p = true -> ~ In 63 p /\ ~ In 35 p.
Proof.
  intros p H. rewrite forallb_forall in H. split; intro Hi; apply H in Hi; discriminate.
Qed.
Lemma lower1_is : forall p q, map lower1 p = q -> Forall2 lower_is p q.
Proof.
  intros p q <-. induction p as [|c p IH]; constructor; [|assumption].
  unfold lower_is, lower1. destruct (is_upper c) eqn:E; [|auto]. right. unfold is_upper in E. lia.
Qed.

Lemma url_split_spec : forall t sch r, url_split_scheme t = (sch, r) ->
  exists pre, t = pre ++ r /\ ~ In 63 pre /\ ~ In 35 pre /\
    (sch = u "https" -> https_url t).
Proof.
  intros t sch r H. unfold url_split_scheme in H.
  destruct (partition1 58 t) as [[p f] rest] eqn:Ep. apply partition1_spec in Ep. destruct Ep as [Hp Ht].
  destruct p as [|c p].
  { injection H as <- <-. exists []. repeat split; auto. discriminate. }
  destruct (f && is_alpha c && forallb scheme_char (c :: p)) eqn:E.
  - injection H as <- <-. rewrite !andb_true_iff in E. destruct E as [[-> _] E].
    destruct (scheme_char_not _ E) as [S1 S2].
    exists ((c :: p) ++ [58]). split; [rewrite Ht, <- app_assoc; reflexivity|].
    split; [intro Hi; apply in_app_iff in Hi; destruct Hi as [Hi|[Hi|[]]]; [auto|discriminate]|].
    split; [intro Hi; apply in_app_iff in Hi; destruct Hi as [Hi|[Hi|[]]]; [auto|discriminate]|].
    intro Hs. exists (c :: p), rest. split; [assumption|]. apply lower1_is. exact Hs.
  - injection H as <- <-. exists []. repeat split; auto. discriminate.
Qed.

Lemma take_until_spec : forall f t, exists z, t = take_until f t ++ z /\ forall c, In c (take_until f t) -> f c = false.
Proof.
  intros f t. unfold take_until. destruct (span (fun c => negb (f c)) t) as [a b] eqn:E. apply span_forall in E.
  destruct E as [H1 H2]. exists b. split; [assumption|]. intros c Hc. cbn [fst] in Hc. rewrite forallb_forall in H1.
  apply H1 in Hc. apply negb_true_iff. assumption.
Qed.

Lemma slash_slash : forall (r : ustr) (f : ustr -> ustr) n,
  match r with 47 :: 47 :: t => Some (f t) | _ => None end = Some n -> exists t, r = 47 :: 47 :: t /\ n = f t.
Proof.
  intros r f n H.
  destruct r as [|a r]; [discriminate|]. destruct a as [|a]; [discriminate|].
  do 6 (destruct a as [a|a|]; try discriminate).
  destruct r as [|b r]; [discriminate|]. destruct b as [|b]; [discriminate|].
  do 6 (destruct b as [b|b|]; try discriminate).
  exists r. injection H as <-. auto.
Qed.

Lemma urlparse_spec : forall E s p, urlparse E s = Ok p -> up_query p = [] -> up_fragment p = [] ->
  no_query (url_clean s) /\ no_fragment (url_clean s) /\ (up_scheme p = u "https" -> https_url (url_clean s)).
Proof.
  intros E s p H Hq Hf. unfold urlparse in H.
  destruct (url_split_scheme (url_clean s)) as [sch r] eqn:Es. apply url_split_spec in Es.
  destruct Es as [pre [Ht [Hp1 [Hp2 Hs]]]].
  set (t := url_clean s) in *.
  set (ne := fun c => (c =? 47) || (c =? 63) || (c =? 35)) in *.
  set (netloc := match r with 47 :: 47 :: t => Some (take_until ne t) | _ => None end) in *.
  destruct (match netloc with Some n => e_netloc_ok E n | None => true end); [|discriminate].
  set (r1 := match netloc with Some n => skipn (2 + List.length n) r | None => r end) in *.
  assert (Hr : exists pre1, r = pre1 ++ r1 /\ ~ In 63 pre1 /\ ~ In 35 pre1).
  { destruct netloc as [n|] eqn:En; [|exists []; auto].
    assert (exists t', r = 47 :: 47 :: t' /\ n = take_until ne t').
    { subst netloc. clear -En. apply slash_slash in En. exact En. }
    destruct H0 as [t' [Hr Hn]]. destruct (take_until_spec ne t') as [z [Hz Hc]]. rewrite <- Hn in Hz, Hc.
    exists (47 :: 47 :: n). split.
    - subst r1. rewrite Hr, Hz. cbn [plus skipn app]. rewrite skipn_app, skipn_all, Nat.sub_diag. reflexivity.
    - split; (intros [Hi|[Hi|Hi]]; [discriminate|discriminate|apply Hc in Hi; discriminate]). }
  destruct Hr as [pre1 [Hr [Hn1 Hn2]]].
  destruct (partition1 35 r1) as [[r2 f2] frag] eqn:E1. destruct (partition1 63 r2) as [[r3 f3] query] eqn:E2.
  injection H as <-. cbn [up_query up_fragment up_scheme] in *. subst query frag.
  apply partition1_spec in E1. apply partition1_spec in E2. destruct E1 as [F1 F2]. destruct E2 as [Q1 Q2].
  assert (H2 : r2 = r3 \/ r2 = r3 ++ [63]) by (destruct f3; [right; assumption|left; tauto]).
  assert (H1 : r1 = r2 \/ r1 = r2 ++ [35]) by (destruct f2; [right; assumption|left; tauto]).
  set (W := pre ++ pre1) in *.
  assert (HW1 : ~ In 63 (W ++ r3)) by (subst W; rewrite !in_app_iff; tauto).
  assert (HW2 : ~ In 35 (W ++ r2)) by (subst W; rewrite !in_app_iff; tauto).
  assert (T : t = W ++ r1) by (subst W; rewrite Ht, Hr, app_assoc; reflexivity).
  split; [|split; [|assumption]].
  - intros a b Hab. rewrite T in Hab. clear -H1 H2 HW1 HW2 Hab. clearbody W r1.
    destruct H1 as [-> | ->]; destruct H2 as [-> | ->].
    + exfalso. exact (absent_tail _ _ _ _ HW1 Hab).
    + left. apply (uniq_tail 63 (W ++ r3) [] a b HW1); [intros []|]. rewrite <- app_assoc. exact Hab.
    + exfalso. apply (absent_tail 63 (W ++ r3 ++ [35]) a b); [|exact Hab].
      rewrite app_assoc, in_app_iff. intros [Hi|[Hi|[]]]; [auto|discriminate].
    + right. apply (uniq_tail 63 (W ++ r3) [35] a b HW1); [intros [Hi|[]]; discriminate|].
      rewrite <- Hab, <- !app_assoc. reflexivity.
  - intros a b Hab. rewrite T in Hab. clear -H1 HW2 Hab. clearbody W r1. destruct H1 as [-> | ->].
    + exfalso. exact (absent_tail _ _ _ _ HW2 Hab).
    + apply (uniq_tail 35 (W ++ r2) [] a b HW2); [intros []|]. rewrite <- app_assoc. exact Hab.
Qed.

Lemma py_iter_element : forall v l x, py_iter v = Ok l -> (In x l <-> element v x).
Proof.
  intros v l x H. destruct v; cbn [py_iter element] in *; try discriminate; injection H as <-.
  - rewrite in_map_iff. split; intros [c [A B]]; exists c; auto.
  - reflexivity.
  - rewrite in_map_iff. split.
    + intros [[k w] [A B]]. exists k. split; [apply in_map_iff; exists (k, w); auto|symmetry; exact A].
    + intros [k [A B]]. apply in_map_iff in A. destruct A as [[k' w] [A A2]]. cbn in A. subst k'. exists (k, w). auto.
  - rewrite in_map_iff. split.
    + intros [[k w] [A B]]. exists k. split; [apply in_map_iff; exists (k, w); auto|symmetry; exact A].
    + intros [k [A B]]. apply in_map_iff in A. destruct A as [[k' w] [A A2]]. cbn in A. subst k'. exists (k, w). auto.
Qed.

Lemma any_code_false : forall l, any_code l = Ok false -> forall x, In x l -> ~ contains x (VStr (u "code")).
Proof.
  induction l as [|y l IH]; intros H x Hx Hc; [destruct Hx|]. cbn [any_code] in H. bo H.
  destruct x0; [discriminate|]. destruct Hx as [->|Hx].
  - apply py_in_true in Hc. congruence.
  - exact (IH H x Hx Hc).
Qed.

Lemma check_char_v_text : forall s, check_char_set_v (VStr s) scope_charset = Ok tt <-> forall c, In c s -> scope_char_but_excl c.
Proof. intro s. cbn [check_char_set_v]. apply c47_partial. Qed.

Lemma c46 : forall E K hdr d d', verify E K hdr C_oidc_ProviderConfigurationResponse d = (d', Ok true) ->
  d' = d /\ response_ok (cdef C_oidc_ProviderConfigurationResponse) d /\
  (forall sc, dget d (u "scopes_supported") = Some sc -> contains sc (VStr (u "openid")) /\
     forall s, element sc (VStr s) -> forall c, In c s -> scope_char_but_excl c) /\
  (exists iss t, dget d (u "issuer") = Some (VStr iss) /\ url_text iss t /\
     (kget K (u "allow_http") = None -> https_url t) /\ no_query t /\ no_fragment t) /\
  (exists algs, dget d (u "id_token_signing_alg_values_supported") = Some algs /\ contains algs (VStr (u "RS256"))) /\
  (exists rts, dget d (u "response_types_supported") = Some rts /\
     forall x, element rts x -> contains x (VStr (u "code")) -> exists v, dget d (u "token_endpoint") = Some v).
Proof.
  intros E K hdr d d' H.
  change (pure (provider_verify E K (cdef C_oidc_ProviderConfigurationResponse)) d = (d', Ok true)) in H.
  unfold pure in H. injection H as <- H. split; [reflexivity|].
  unfold provider_verify in H. bo H. bo H. bo H. bo H. bo H. bo H. bo H. bo H. bo H. bo H. bo H. bo H.
  apply response_verify_ok in Hx. split; [tauto|]. split.
  { intros sc Hs. rewrite Hs in Hx0. bo Hx0. bo Hx0. bo Hx0. bo Hx0.
    apply raise_if_ok in Hx12. destruct Hx12 as [Hx12 _]. destruct x11; [|discriminate].
    split; [apply py_in_true; assumption|]. intros s Hel. apply (py_iter_element _ _ _ Hx13) in Hel.
    apply mapM_ok in Hx14. apply check_char_v_text.
    clear -Hel Hx14. induction Hx14 as [|a b l l' Hab Hl IH]; [destruct Hel|].
    destruct Hel as [->|Hel]; [destruct b; assumption|auto]. }
  split.
  { apply getitem_ok in Hx1. destruct x1 as [| | | |iss| | |]; try discriminate.
    apply raise_if_ok in Hx6. destruct Hx6 as [Hn _].
    destruct (up_query x2) eqn:Eq; [|discriminate]. destruct (up_fragment x2) eqn:Ef; [|discriminate].
    destruct (urlparse_spec _ _ _ Hx2 Eq Ef) as [U1 [U2 U3]].
    exists iss, (url_clean iss). split; [assumption|]. split; [apply lstrip_text|].
    split; [|auto]. intro Hh. apply U3. assert (Hk : khas K (u "allow_http") = false) by (apply dhas_false; exact Hh).
    rewrite Hk in Hx3. apply raise_if_ok in Hx3. destruct Hx3 as [Hx3 _]. apply negb_false_iff in Hx3.
    apply ueqb_eq. assumption. }
  split.
  { apply getitem_ok in Hx4. exists x4. split; [assumption|].
    apply py_in_true.
    match goal with Hr : raise_if (negb ?b) _ = Ok _, Hp : py_in _ x4 = Ok ?b |- _ =>
      apply raise_if_ok in Hr; destruct Hr as [Hr _]; apply negb_false_iff in Hr; rewrite Hr in Hp; exact Hp end. }
  { apply getitem_ok in Hx8. exists x8. split; [assumption|]. intros y Hy Hc.
    destruct x10.
    - cbn [andb] in H. destruct (dhas d (u "token_endpoint")) eqn:Et; [apply dhas_true; assumption|discriminate].
    - exfalso. eapply any_code_false; [exact Hx10| |exact Hc]. apply (py_iter_element _ _ _ Hx9). exact Hy. }
Qed.

(** ** claims_match *)
Lemma claims_loop_true : forall v l, NoDup (map fst l) -> claims_loop v l = Ok true ->
  (exists x, dget l (u "value") = Some x /\ py_eq v x = true) \/
  (exists x, dget l (u "values") = Some x /\ contains x v).
Proof.
  intro v. induction l as [|[k x] l IH]; intros Hn H; cbn [claims_loop] in H; [discriminate|].
  inversion Hn as [|? ? Hk Hl]; subst.
  assert (Hin : forall a b, dget l a = Some b -> k <> a).
  { intros a b Ha ->. apply Hk. apply dget_In in Ha. exact (in_map fst _ _ Ha). }
  assert (Hrest : claims_loop v l = Ok true ->
    (exists y, dget ((k, x) :: l) (u "value") = Some y /\ py_eq v y = true) \/
    (exists y, dget ((k, x) :: l) (u "values") = Some y /\ contains y v)).
  { intro H0. destruct (IH Hl H0) as [[y [A B]]|[y [A B]]]; [left|right]; exists y; (split; [|assumption]);
    cbn [dget]; pose proof (Hin _ _ A) as Hne; (destruct (ueqb _ k) eqn:E; [apply ueqb_eq in E; congruence|assumption]). }
  destruct (ueqb k (u "value")) eqn:E1.
  - destruct (py_eq v x) eqn:Ev; [|auto]. left. exists x. apply ueqb_eq in E1. subst k. cbn [dget]. rewrite ueqb_refl. auto.
  - destruct (ueqb k (u "values")) eqn:E2; [|auto]. bo H. destruct x0; [|auto].
    right. exists x. apply ueqb_eq in E2. subst k. cbn [dget]. rewrite ueqb_refl. split; [reflexivity|]. apply py_in_true. assumption.
Qed.
Lemma claims_loop_total : forall v l, (forall x, In (u "values", x) l -> exists vs, x = VList vs) ->
  exists b, claims_loop v l = Ok b.
Proof.
  intro v. induction l as [|[k x] l IH]; intro H; [exists false; reflexivity|]. cbn [claims_loop].
  destruct IH as [b IH]; [intros y Hy; apply H; right; assumption|].
  destruct (ueqb k (u "value")); [destruct (py_eq v x); eauto|].
  destruct (ueqb k (u "values")) eqn:E; [|eauto]. apply ueqb_eq in E. subst k.
  destruct (H x (or_introl eq_refl)) as [vs ->]. cbn [py_in bind]. destruct (existsb _ vs); eauto.
Qed.
Lemma claims_loop_hit : forall v l b, claims_loop v l = Ok b ->
  (exists x, In (u "value", x) l /\ py_eq v x = true) \/ (exists x, In (u "values", x) l /\ contains x v) -> b = true.
Proof.
  intro v. induction l as [|[k x] l IH]; intros b H Hh.
  - destruct Hh as [[x [[] _]]|[x [[] _]]].
  - cbn [claims_loop] in H. destruct (ueqb k (u "value")) eqn:E1.
    + destruct (py_eq v x) eqn:Ev; [congruence|]. apply (IH _ H). apply ueqb_eq in E1. subst k.
      destruct Hh as [[y [[A|A] B]]|[y [[A|A] B]]]; [injection A as <-; congruence|eauto|discriminate|eauto].
    + destruct (ueqb k (u "values")) eqn:E2.
      * bo H. destruct x0; [congruence|]. apply (IH _ H).
        destruct Hh as [[y [[A|A] B]]|[y [[A|A] B]]].
        -- injection A as -> ->. rewrite ueqb_refl in E1. discriminate.
        -- eauto.
        -- injection A as -> ->. apply py_in_true in B. congruence.
        -- eauto.
      * apply (IH _ H). destruct Hh as [[y [[A|A] B]]|[y [[A|A] B]]]; eauto; injection A as -> ->.
        -- rewrite ueqb_refl in E1. discriminate.
        -- rewrite ueqb_refl in E2. discriminate.
Qed.

Lemma c48 : forall v spec, NoDup (map fst spec) ->
  (forall x, dget spec (u "values") = Some x -> exists vs, x = VList vs) ->
  (claims_match v (Some spec) = Ok true <-> claims_hit v spec) /\
  (claims_match v (Some spec) = Ok false <-> ~ claims_hit v spec).
Proof.
  intros v spec Hn Hv.
  destruct (claims_loop_total v spec) as [b Hb].
  { intros x Hx. apply Hv. apply In_dget; assumption. }
  assert (G : claims_match v (Some spec) = Ok true <-> claims_hit v spec).
  { unfold claims_match. rewrite Hb. cbn [bind]. unfold claims_hit. split.
    - intro H. destruct b.
      + destruct (claims_loop_true v spec Hn Hb) as [A|[x [A B]]]; [auto|right; left; eauto].
      + destruct spec as [|[k x] [|? ?]]; try discriminate. destruct (ueqb k (u "essential")) eqn:E; [|discriminate].
        apply ueqb_eq in E. subst k. right. right. eauto.
    - intros [[x [A B]]|[[x [A B]]|[x ->]]].
      + assert (b = true) by (apply (claims_loop_hit _ _ _ Hb); left; exists x; split; [apply dget_In; assumption|assumption]).
        subst b. destruct spec as [|[? ?] [|? ?]]; try reflexivity. destruct (ueqb _ _); reflexivity.
      + assert (b = true) by (apply (claims_loop_hit _ _ _ Hb); right; exists x; split; [apply dget_In; assumption|assumption]).
        subst b. destruct spec as [|[? ?] [|? ?]]; try reflexivity. destruct (ueqb _ _); reflexivity.
      + rewrite ueqb_refl. reflexivity. }
  split; [exact G|]. rewrite <- G. unfold claims_match. rewrite Hb. cbn [bind].
  split; [congruence|]. intro H.
  match goal with |- Ok ?t = _ => destruct t eqn:E; [exfalso; apply H; reflexivity|reflexivity] end.
Qed.
Lemma c48_none : forall v, claims_match v None = Ok true.
Proof. reflexivity. Qed.
Lemma c48_sound : forall v spec, NoDup (map fst spec) -> claims_match v (Some spec) = Ok true -> claims_hit v spec.
Proof.
  intros v spec Hn H. unfold claims_match in H. bo H. injection H as H. unfold claims_hit. destruct x.
  - destruct (claims_loop_true v spec Hn Hx) as [A|[y [A B]]]; [auto|right; left; eauto].
  - destruct spec as [|[k y] [|? ?]]; try discriminate. destruct (ueqb k (u "essential")) eqn:E; [|discriminate].
    apply ueqb_eq in E. subst k. right. right. eauto.
Qed.

(** ** IdToken.pack *)
Notation IT := (cdef C_oidc_IdToken).
Lemma setitem_hash : forall d a x, In a [u "at_hash"; u "c_hash"] -> x = VNone \/ (exists s, x = VStr s) ->
  setitem IT d a x = (dset d a x, Ok tt).
Proof.
  intros d a x Ha Hx. cbn [In] in Ha. destruct Ha as [<-|[<-|[]]]; destruct Hx as [->|[s ->]]; reflexivity.
Qed.
Lemma last3_hash : forall alg, hash_of_alg alg (u "HS" ++ last3 alg).
Proof.
  intro alg. unfold last3. exists (firstn (List.length alg - 3) alg), (skipn (List.length alg - 3) alg).
  split; [symmetry; apply firstn_skipn|]. split; [reflexivity|]. rewrite skipn_length.
  destruct (le_lt_dec 3 (List.length alg)); [left; lia|right].
  split; [|lia]. replace (List.length alg - 3)%nat with 0%nat by lia. reflexivity.
Qed.
Lemma val_hash1_ok : forall E alg a h d d', text_hash E -> In h [u "at_hash"; u "c_hash"] -> a <> h ->
  val_hash1 E IT alg a h d = (d', Ok tt) ->
  dget d' a = None /\
  (forall k, k <> a -> k <> h -> dget d' k = dget d k) /\
  dget d' h = match dget d a with
              | None => dget d h
              | Some v => match e_lhash E v alg with Ok x => Some x | Err _ => None end
              end /\
  (forall v, dget d a = Some v -> exists x, e_lhash E v alg = Ok x).
Proof.
  intros E alg a h d d' Ht Hh Hne H. unfold val_hash1 in H. destruct (dget d a) as [v|] eqn:Ea.
  - destruct (e_lhash E v alg) as [x|e] eqn:El.
    + destruct (Ht v alg) as [_ Hx]. specialize (Hx x El). rewrite (setitem_hash d h x Hh Hx) in H. injection H as <-.
      rewrite dget_ddel, ueqb_refl. split; [reflexivity|]. split.
      * intros k Hk Hk2. rewrite dget_ddel. destruct (ueqb k a) eqn:E1; [apply ueqb_eq in E1; congruence|].
        apply dget_dset_other. assumption.
      * split.
        -- rewrite dget_ddel. destruct (ueqb h a) eqn:E1; [apply ueqb_eq in E1; congruence|]. apply dget_dset_same.
        -- intros w Hw. injection Hw as <-. eauto.
    + exfalso. destruct (Ht v alg) as [Hk _]. rewrite El in Hk. destruct e; try discriminate. apply Hk. reflexivity.
  - injection H as <-. split; [assumption|]. split; [reflexivity|]. split; [reflexivity|]. discriminate.
Qed.

Lemma c50 : forall E alg z d d', text_hash E -> pack E IT alg (VInt z) d = (d', Ok tt) ->
  exists h, hash_of_alg alg h /\
  dget d' (u "access_token") = None /\ dget d' (u "code") = None /\
  (forall v, dget d (u "access_token") = Some v -> exists x, e_lhash E v h = Ok x /\ dget d' (u "at_hash") = Some x) /\
  (forall v, dget d (u "code") = Some v -> exists x, e_lhash E v h = Ok x /\ dget d' (u "c_hash") = Some x) /\
  dget d' (u "iat") = Some (VInt (e_now E)) /\
  (z <> 0%Z -> dget d' (u "exp") = Some (VInt (e_now E + z))) /\
  (z = 0%Z -> dget d' (u "exp") = dget d (u "exp")) /\
  (dget d (u "access_token") = None -> dget d' (u "at_hash") = dget d (u "at_hash")) /\
  (dget d (u "code") = None -> dget d' (u "c_hash") = dget d (u "c_hash")) /\
  (forall k, ~ In k [u "access_token"; u "code"; u "at_hash"; u "c_hash"; u "iat"; u "exp"] -> dget d' k = dget d k).
Proof.
  intros E alg z d d' Ht H. unfold pack, val_hash in H. exists (u "HS" ++ last3 alg). split; [apply last3_hash|].
  set (h := u "HS" ++ last3 alg) in *.
  destruct (val_hash1 E IT h (u "access_token") (u "at_hash") d) as [d1 [[]|e]] eqn:E1; cbn [andthen] in H; [|discriminate].
  destruct (val_hash1 E IT h (u "code") (u "c_hash") d1) as [d2 [[]|e]] eqn:E2; cbn [andthen] in H; [|discriminate].
  apply val_hash1_ok in E1; [|assumption|cbn; tauto|discriminate].
  apply val_hash1_ok in E2; [|assumption|cbn; tauto|discriminate].
  destruct E1 as [A1 [A2 [A3 A4]]]. destruct E2 as [B1 [B2 [B3 B4]]].
  assert (Hp : d' = if (z =? 0)%Z then dset d2 (u "iat") (VInt (e_now E))
               else dset (dset d2 (u "iat") (VInt (e_now E))) (u "exp") (VInt (e_now E + z))).
  { unfold pack_init in H.
    change (setitem IT d2 (u "iat") (VInt (e_now E))) with (dset d2 (u "iat") (VInt (e_now E)), Ok tt (A := unit)) in H.
    cbn [andthen truthy] in H. destruct (z =? 0)%Z; cbn [negb] in H; [congruence|].
    unfold getitem in H. rewrite dget_dset_same in H. cbn [py_add int_of] in H.
    match type of H with setitem IT ?a ?b ?c = _ => change (setitem IT a b c) with (dset a b c, Ok tt (A := unit)) in H end.
    congruence. }
  assert (Hg : forall k, k <> u "iat" -> k <> u "exp" -> dget d' k = dget d2 k).
  { intros k K1 K2. rewrite Hp. destruct (z =? 0)%Z; rewrite ?dget_dset_other by assumption; reflexivity. }
  rewrite !Hg by discriminate.
  split; [rewrite B2 by discriminate; assumption|]. split; [assumption|].
  split. { intros v Hv. destruct (A4 v Hv) as [x Hx]. exists x. split; [assumption|]. rewrite B2 by discriminate.
    rewrite A3, Hv, Hx. reflexivity. }
  split. { intros v Hv. rewrite A2 in B3, B4 by discriminate. destruct (B4 v Hv) as [x Hx]. exists x. split; [assumption|].
    rewrite B3, Hv, Hx. reflexivity. }
  split. { rewrite Hp. destruct (z =? 0)%Z; [|rewrite dget_dset_other by discriminate]; apply dget_dset_same. }
  split. { intro Hz. rewrite Hp. apply Z.eqb_neq in Hz. rewrite Hz. apply dget_dset_same. }
  split. { intro Hz. rewrite Hp. apply Z.eqb_eq in Hz. rewrite Hz. rewrite dget_dset_other by discriminate.
    rewrite B2, A2 by discriminate. reflexivity. }
  split. { intro Hv. rewrite B2 by discriminate. rewrite A3, Hv. reflexivity. }
  split. { intro Hv. rewrite A2 in B3 by discriminate. rewrite B3, Hv. rewrite A2 by discriminate. reflexivity. }
  intros k Hk. cbn [In] in Hk.
  assert (Hkk : k <> u "access_token" /\ k <> u "code" /\ k <> u "at_hash" /\ k <> u "c_hash" /\ k <> u "iat" /\ k <> u "exp")
    by (repeat split; intros ->; apply Hk; tauto).
  rewrite Hg by tauto. rewrite B2 by tauto. apply A2; tauto.
Qed.

(** ** logout tokens *)
Lemma events_ok : forall ev, events_check ev = Ok tt <->
  exists o, (ev = VDict [(u "http://schemas.openid.net/event/backchannel-logout", o)] \/
     exists c, ev = VMsg c [(u "http://schemas.openid.net/event/backchannel-logout", o)]) /\
    py_eq o (VDict []) = true.
Proof.
  intro ev. change (u "http://schemas.openid.net/event/backchannel-logout") with logout_event. split.
  - intro H. destruct ev as [| | | | | |e|c e]; try discriminate; cbn [events_check] in H;
      (destruct e as [|[k o] [|? ?]]; try discriminate);
      (destruct (ueqb k logout_event) eqn:Ek; [|discriminate]); apply ueqb_eq in Ek; subst k;
      apply raise_if_ok in H; destruct H as [H _]; apply py_ne_false in H; exists o; (split; [|assumption]);
      [left; reflexivity|right; eauto].
  - intros [o [[->|[c ->]] H]]; cbn [events_check]; rewrite ueqb_refl; apply raise_if_ok; (split; [|reflexivity]);
      apply py_ne_false; assumption.
Qed.
Lemma not_in_no_key : forall x c, not_in x c <> Err EKeyError.
Proof.
  intros x c. unfold not_in, py_in. destruct c; cbn [bind]; try discriminate; destruct x; cbn [bind]; discriminate.
Qed.

Lemma logout_verify_ok : forall E K C hdr d b, logout_token_verify E K C hdr d = Ok b <->
  (table_ok C d /\ logout_rules (e_now E) K hdr d) /\ b = true.
Proof.
  intros E K C hdr d b.
  assert (Aud : match kget K (u "aud"), dget d (u "aud") with
          | Some a, Some aud =>
              match not_in a aud with
              | Ok b => raise_if b ENotForMe
              | Err EKeyError => Ok tt
              | Err e => Err e
              end
          | _, _ => Ok tt
          end = Ok tt <-> forall aud a, dget d (u "aud") = Some aud -> kget K (u "aud") = Some a -> contains aud a).
  { destruct (kget K (u "aud")) as [a|]; [|split; [discriminate|reflexivity]].
    destruct (dget d (u "aud")) as [aud|]; [|split; [discriminate|reflexivity]].
    split.
    - intros H x y Hx Hy. injection Hx as <-. injection Hy as <-. apply not_in_false.
      pose proof (not_in_no_key a aud). destruct (not_in a aud) as [[|]|e]; [discriminate|reflexivity|destruct e; congruence].
    - intro H. pose proof (H _ _ eq_refl eq_refl) as G. apply not_in_false in G. rewrite G. reflexivity. }
  unfold logout_token_verify. split.
  - intro H. bo H. bo H. bo H. bo H. bo H. bo H. bo H. bo H.
    rewrite unit_ok in Hx2, Hx4, Hx5, Hx6.
    apply verify_base_true in Hx. apply raise_if_ok in Hx0. destruct Hx0 as [Hx0 _].
    apply dhas_false in Hx0. apply getitem_ok in Hx1. apply events_ok in Hx2. destruct Hx2 as [o Hev].
    apply raise_if_ok in Hx3. destruct Hx3 as [Hx3 _]. apply negb_false_iff in Hx3. apply orb_true_iff in Hx3.
    pose proof (proj1 Aud Hx4) as Haud. apply agree_ne in Hx5.
    pose proof (proj1 (opt_check (dget d (u "iat")) _ _ (fun v => iat_max_check (e_now E) K v EValueError)) Hx6) as Hiat.
    assert (Halg : (forall a, kget K (u "allowed_sign_alg") = Some a -> ~ empty_value a ->
      exists h alg, hdr = Some h /\ dget h (u "alg") = Some alg /\ py_eq alg a = true) /\ b = true).
    { destruct (kget K (u "allowed_sign_alg")) as [a|]; [|split; [discriminate|congruence]].
      destruct (truthy a) eqn:Et.
      - destruct hdr as [h|]; [|discriminate]. destruct (dget h (u "alg")) as [g|] eqn:Eg; [|discriminate].
        destruct (py_ne g a) eqn:En; [discriminate|]. split; [|congruence]. intros a' Ha _. injection Ha as <-.
        exists h, g. apply py_ne_false in En. auto.
      - split; [|congruence]. intros a' Ha Hne. injection Ha as <-. apply truthy_empty in Et. contradiction. }
    destruct Halg as [Halg ->]. split; [|reflexivity]. split; [tauto|]. constructor.
    + assumption.
    + exists x1, o. split; [assumption|]. exact Hev.
    + destruct Hx3 as [H3|H3]; apply dhas_true in H3; destruct H3 as [v H3]; [left|right]; congruence.
    + exact Haud.
    + exact Hx5.
    + exact Hiat.
    + exact Halg.
  - intros [[Ht R] ->]. destruct R as [R1 [ev [o [R2 R3]]] R4 R5 R6 R7 R8].
    assert (Hb : verify_base C d = Ok true) by (apply verify_base_true; auto). rewrite Hb. cbn [bind].
    apply dhas_false in R1. rewrite R1. cbn [raise_if bind].
    apply getitem_ok in R2. rewrite R2. cbn [bind].
    assert (He : events_check ev = Ok tt) by (apply events_ok; exists o; exact R3). rewrite He. cbn [bind].
    assert (Hw : dhas d (u "sub") || dhas d (u "sid") = true).
    { apply orb_true_iff. destruct R4 as [R4|R4]; [left|right]; apply dhas_true.
      - destruct (dget d (u "sub")); [eauto|congruence].
      - destruct (dget d (u "sid")); [eauto|congruence]. }
    rewrite Hw. cbn [negb raise_if bind]. apply Aud in R5. rewrite R5. cbn [bind].
    apply (agree_ne _ _ ENotForMe) in R6. rewrite R6. cbn [bind].
    assert (H1 : match dget d (u "iat") with None => Ok tt | Some t =>
        do x <- py_add (VInt (e_now E)) (karg K (u "skew") (VInt 0)) ; do b <- py_gt t x ; raise_if b EValueError end = Ok tt).
    { apply (proj2 (opt_check (dget d (u "iat")) _ _ (fun v => iat_max_check (e_now E) K v EValueError))). assumption. }
    rewrite H1. cbn [bind]. clear H1.
    destruct (kget K (u "allowed_sign_alg")) as [a|]; [|reflexivity]. destruct (truthy a) eqn:Et; [|reflexivity].
    destruct (R8 a eq_refl) as [h [alg [-> [Ha Hq]]]].
    { intro Hem. apply truthy_empty in Hem. congruence. }
    rewrite Ha. apply py_ne_false in Hq. rewrite Hq. reflexivity.
Qed.

Lemma verify_arg_on : forall K, (forall v, kget K (u "verify") = Some v -> ~ empty_value v) -> verify_arg K = true.
Proof.
  intros K Hv. unfold verify_arg. destruct (kget K (u "verify")) as [w|]; [|reflexivity].
  destruct (truthy w) eqn:Et; [reflexivity|]. exfalso. apply truthy_empty in Et. exact (Hv w eq_refl Et).
Qed.

Lemma backchannel_true : forall E K d d', backchannel_verify E K (cdef C_session_BackChannelLogoutRequest) d = (d', Ok true) ->
  exists v t lt hdr, dget d (u "logout_token") = Some v /\ py_str_e E v = Ok t /\
    from_jwt E 0 (cdef C_session_LogoutToken) t (kw_jar K) (verify_arg K) (id_token_args K) = Ok (lt, hdr) /\
    logout_token_verify E K (cdef C_session_LogoutToken) hdr lt = Ok true /\
    d' = dset d (u "__verified_logout_token") (VMsg C_session_LogoutToken lt).
Proof.
  intros E K d d' H. unfold backchannel_verify in H. apply checked_true in H. destruct H as [_ [_ H]].
  destruct (getitem d (u "logout_token")) as [v|e] eqn:Eg; [|congruence]. apply getitem_ok in Eg.
  destruct (py_str_e E v) as [t|e] eqn:Et; cbn [bind] in H; [|congruence].
  destruct (from_jwt E 0 (cdef C_session_LogoutToken) t (kw_jar K) (verify_arg K) (id_token_args K)) as [[lt hdr]|e] eqn:Ef; [|congruence].
  destruct (logout_token_verify E K (cdef C_session_LogoutToken) hdr lt) as [[|]|e] eqn:El; [|congruence|congruence].
  change (verified_claim_name (u "logout_token")) with (u "__verified_logout_token") in H.
  rewrite setitem_slot in H by (cbn; tauto). cbn [andthen] in H.
  exists v, t, lt, hdr. repeat (split; [assumption|]). destruct (to_dict (cdef C_session_LogoutToken) lt); congruence.
Qed.

Lemma c52 : forall E K hdr d d' t, verify E K hdr C_session_BackChannelLogoutRequest d = (d', Ok true) ->
  dget d (u "logout_token") = Some (VStr t) -> not_encrypted E t ->
  exists lt, decoded E 0 C_session_LogoutToken t lt /\
    dget d' (u "__verified_logout_token") = Some (VMsg C_session_LogoutToken lt) /\
    table_ok (cdef C_session_LogoutToken) lt /\
    (exists h, logout_rules (e_now E) K h lt /\
       (forall tok, e_jws E (VStr t) = Ok (Some tok) -> h = Some (t_hdr tok)) /\
       (e_jws E (VStr t) = Ok None -> h = None)) /\
    (forall tok, e_jws E (VStr t) = Ok (Some tok) -> signed_tok tok ->
       (forall v, kget K (u "verify") = Some v -> ~ empty_value v) -> signature_verified_for E K t tok).
Proof.
  intros E K hdr d d' t H Ht Hn.
  change (backchannel_verify E K (cdef C_session_BackChannelLogoutRequest) d = (d', Ok true)) in H.
  apply backchannel_true in H. destruct H as [v [t2 [lt [h [H1 [H2 [H3 [H4 ->]]]]]]]].
  rewrite Ht in H1. injection H1 as <-. apply py_str_text in H2. subst t2.
  exists lt. split; [exact (from_jwt_decoded _ _ _ _ _ _ _ _ _ H3)|]. split; [apply dget_dset_same|].
  apply logout_verify_ok in H4. destruct H4 as [[Hta Hru] _]. split; [assumption|].
  pose proof (from_jwt_inv _ _ _ _ _ _ _ _ _ H3) as [_ [t' [p [Hd [_ Hs]]]]].
  rewrite not_encrypted_decrypt in Hd by assumption. injection Hd as <-.
  split.
  - exists h. split; [assumption|]. destruct Hs as [[tok [S1 [S2 [S3 S4]]]]|[S1 [S2 S3]]]; split; intros; congruence.
  - intros tok Hj Hst Hv. destruct Hs as [[tok2 [S1 [S2 [S3 S4]]]]|[S1 _]]; [|congruence].
    rewrite Hj in S1. injection S1 as <-. rewrite (verify_arg_on K Hv) in S4. 
    exists (id_token_args K). split; [apply id_token_args_passed|]. exact (jwt_check_sig _ _ _ _ _ S4 Hst).
Qed.
(** with a required signing algorithm other than none only verified tokens come through *)
Lemma c52_alg : forall E K hdr d d' t a, verify E K hdr C_session_BackChannelLogoutRequest d = (d', Ok true) ->
  dget d (u "logout_token") = Some (VStr t) -> not_encrypted E t ->
  kget K (u "allowed_sign_alg") = Some a -> ~ empty_value a -> a <> VStr (u "none") ->
  (forall v, kget K (u "verify") = Some v -> ~ empty_value v) ->
  exists tok, e_jws E (VStr t) = Ok (Some tok) /\ signature_verified_for E K t tok.
Proof.
  intros E K hdr d d' t a H Ht Hn Ha Hne Hnone Hv.
  destruct (c52 _ _ _ _ _ _ H Ht Hn) as [lt [[t' [p [Hdec [Hp _]]]] [_ [_ [[h [R [R1 R2]]] Hsig]]]]].
  assert (Ht' : t' = t).
  { destruct Hdec as [[-> _]|[ar Hx]]; [reflexivity|]. rewrite Hn in Hx. discriminate. }
  subst t'. destruct (l_alg _ _ _ _ R a Ha Hne) as [h' [alg [Hh [Hal Hq]]]].
  destruct Hp as [[tok [Hj _]]|[Hj _]]; [|rewrite (R2 Hj) in Hh; discriminate].
  exists tok. split; [assumption|]. apply Hsig; [assumption| |assumption].
  rewrite (R1 _ Hj) in Hh. injection Hh as <-. unfold signed_tok. intro Hc. rewrite Hc in Hal. injection Hal as <-.
  apply py_eq_str_l in Hq. congruence.
Qed.

Lemma decoded_fun : forall E i j c t a b, not_encrypted E t -> decoded E i c t a -> decoded E j c t b -> a = b.
Proof.
  intros E i j c t a b Hn [t1 [p1 [D1 [P1 F1]]]] [t2 [p2 [D2 [P2 F2]]]].
  assert (t1 = t) by (destruct D1 as [[-> _]|[ar Hx]]; [reflexivity|rewrite Hn in Hx; discriminate]).
  assert (t2 = t) by (destruct D2 as [[-> _]|[ar Hx]]; [reflexivity|rewrite Hn in Hx; discriminate]).
  subst t1 t2.
  assert (p1 = p2).
  { destruct P1 as [[k1 [A1 B1]]|[A1 B1]]; destruct P2 as [[k2 [A2 B2]]|[A2 B2]]; congruence. }
  subst p2. congruence.
Qed.

Notation ESR := C_session_EndSessionRequest.
Lemma c53_hint : forall E K hdr d d', verify E K hdr ESR d = (d', Ok true) ->
  dget d (u "post_logout_redirect_uri") <> None -> dget d (u "id_token_hint") <> None.
Proof.
  intros E K hdr d d' H Hp Hn. change (end_session_verify E K (cdef ESR) d = (d', Ok true)) in H.
  unfold end_session_verify in H. apply checked_true in H. destruct H as [_ [_ H]].
  assert (Hc : dget (clear_verified d) (u "id_token_hint") = None) by (rewrite dget_clear; exact Hn).
  rewrite Hc in H.
  assert (Hq : dhas (clear_verified d) (u "post_logout_redirect_uri") = true).
  { apply dhas_true. rewrite dget_clear.
    replace (ueqb (u "post_logout_redirect_uri") slot_id_token || ueqb (u "post_logout_redirect_uri") slot_hint
             || ueqb (u "post_logout_redirect_uri") slot_request) with false by reflexivity.
    destruct (dget d (u "post_logout_redirect_uri")); [eauto|congruence]. }
  rewrite Hq in H. discriminate.
Qed.
Lemma c53_slot : forall E K hdr d d' t, verify E K hdr ESR d = (d', Ok true) ->
  dget d (u "id_token_hint") = Some (VStr t) -> not_encrypted E t ->
  exists idt tok body, decoded E 0 C_oidc_IdToken t idt /\ dget d' slot_hint = Some (VMsg C_oidc_IdToken idt) /\
    e_jws E (VStr t) = Ok (Some tok) /\ t_body tok = Ok body /\
    id_token_accepted E K false d t tok body idt.
Proof.
  intros E K hdr d d' t H Ht Hn. change (end_session_verify E K (cdef ESR) d = (d', Ok true)) in H.
  unfold end_session_verify in H. apply checked_true in H. destruct H as [_ [_ H]].
  assert (Hc : dget (clear_verified d) (u "id_token_hint") = Some (VStr t)) by (rewrite dget_clear; exact Ht).
  rewrite Hc in H. change (py_str_e E (VStr t)) with (Ok t (A := ustr)) in H. cbn [bind] in H.
  destruct (from_jwt E 0 (cdef C_oidc_IdToken) t (kw_jar K) (verify_arg K) (id_token_args K)) as [[idt h]|e] eqn:Ef; [|congruence].
  destruct (verify_id_token E 1 K (cdef ESR) false (u "id_token_hint") (clear_verified d)) as [d2 [[|]|e]] eqn:Ev;
    cbn [andthen] in H; [|congruence|congruence].
  change (verified_claim_name (u "id_token_hint")) with slot_hint in H.
  rewrite setitem_slot in H by (cbn; tauto). cbn [andthen] in H. injection H as <-.
  apply verify_id_token_true in Ev; [|right; left; reflexivity]. destruct Ev as [idt2 [Ev ->]].
  pose proof (from_jwt_decoded _ _ _ _ _ _ _ _ _ Ef) as Hdec.
  destruct (check_id_token_text _ _ _ _ _ _ _ _ Ev Hc Hn) as [tok [body [G1 [G2 [G3 [G4 G5]]]]]].
  assert (idt = idt2).
  { apply (decoded_fun E 0 0 C_oidc_IdToken t); [assumption|assumption|]. exists t, body.
    split; [left; split; [reflexivity|exists []; apply Hn]|]. split; [left; eauto|assumption]. }
  subst idt2. exists idt, tok, body. split; [assumption|]. split; [apply dget_dset_same|].
  split; [assumption|]. split; [assumption|].
  destruct G5 as [Q1 Q2 Q3 Q4 Q5 Q6 Q7]. constructor; try assumption. discriminate.
Qed.

(** ** factories *)
Lemma by_name_spec : forall l n c, NoDup (map cls_name l) -> (by_name l n = Some c <-> In c l /\ cls_name c = n).
Proof.
  intros l n c Hn. unfold by_name. split.
  - intro H. apply find_some in H. destruct H as [H1 H2]. apply ueqb_eq in H2. auto.
  - induction l as [|a l IH]; intros [Hi He]; [destruct Hi|]. cbn [find map] in *. inversion Hn as [|? ? Ha Hl]; subst.
    destruct Hi as [->|Hi]; [rewrite ueqb_refl; reflexivity|].
    destruct (ueqb (cls_name a) (cls_name c)) eqn:E; [|apply IH; auto].
    apply ueqb_eq in E. exfalso. apply Ha. rewrite E. apply in_map. assumption.
Qed.
Lemma nodup_ub : forall l : list ustr, (fix nd (l : list ustr) := match l with [] => true | x :: r => negb (existsb (ueqb x) r) && nd r end) l = true -> NoDup l.
Proof.
  induction l as [|x l IH]; intro H; constructor.
  - apply andb_true_iff in H. destruct H as [H _]. apply negb_true_iff in H. intro Hi.
    assert (existsb (ueqb x) l = true) by (apply existsb_exists; exists x; split; [assumption|apply ueqb_refl]). congruence.
  - apply IH. apply andb_true_iff in H. tauto.
Qed.
Definition pair_subb (l : list (ustr * cls)) (m : list cls) : bool :=
  forallb (fun p => existsb (fun c => if cls_eq_dec c (snd p) then ueqb (cls_name c) (fst p) else false) m) l.
Lemma pair_subb_ok : forall l m, pair_subb l m = true -> forall n c, In (n, c) l -> In c m /\ cls_name c = n.
Proof.
  intros l m H n c Hi. unfold pair_subb in H. rewrite forallb_forall in H. specialize (H _ Hi). apply existsb_exists in H.
  destruct H as [c' [H1 H2]]. cbn [fst snd] in H2. destruct (cls_eq_dec c' c) as [->|]; [|discriminate].
  apply ueqb_eq in H2. auto.
Qed.
Definition pair_supb (m : list cls) (l : list (ustr * cls)) : bool :=
  forallb (fun c => existsb (fun p => if cls_eq_dec c (snd p) then ueqb (cls_name c) (fst p) else false) l) m.
Lemma pair_supb_ok : forall m l, pair_supb m l = true -> forall c, In c m -> In (cls_name c, c) l.
Proof.
  intros m l H c Hi. unfold pair_supb in H. rewrite forallb_forall in H. specialize (H _ Hi). apply existsb_exists in H.
  destruct H as [[n c'] [H1 H2]]. cbn [fst snd] in H2. destruct (cls_eq_dec c c') as [<-|]; [|discriminate].
  apply ueqb_eq in H2. subst n. assumption.
Qed.
Lemma oauth2_by_name : forall n c, by_name oauth2_members n = Some c <-> In (n, c) members_oauth2.
Proof.
  intros n c. rewrite by_name_spec by (apply nodup_ub; vm_compute; reflexivity). split.
  - intros [H <-]. revert c H. apply pair_supb_ok. vm_compute. reflexivity.
  - revert n c. apply pair_subb_ok. vm_compute. reflexivity.
Qed.
Lemma oidc_by_name : forall n c, by_name oidc_members n = Some c <-> In (n, c) members_oidc.
Proof.
  intros n c. rewrite by_name_spec by (apply nodup_ub; vm_compute; reflexivity). split.
  - intros [H <-]. revert c H. apply pair_supb_ok. vm_compute. reflexivity.
  - revert n c. apply pair_subb_ok. vm_compute. reflexivity.
Qed.
Lemma find_construct_some : forall l n kws c d, find_construct l n kws = Ok (Some (c, d)) <->
  by_name l n = Some c /\ construct (cdef c) kws = Ok d.
Proof.
  intros l n kws c d. unfold find_construct. destruct (by_name l n) as [c'|].
  - split.
    + intro H. destruct (construct (cdef c') kws) as [d'|e] eqn:E; [|destruct e; discriminate]. injection H as -> ->. auto.
    + intros [H1 H2]. injection H1 as ->. rewrite H2. reflexivity.
  - split; [discriminate|intros [H _]; discriminate].
Qed.
Lemma find_construct_none : forall l n kws, find_construct l n kws = Ok None <->
  by_name l n = None \/ exists c, by_name l n = Some c /\ construct (cdef c) kws = Err EAttributeError.
Proof.
  intros l n kws. unfold find_construct. destruct (by_name l n) as [c|].
  - split.
    + intro H. right. exists c. split; [reflexivity|]. destruct (construct (cdef c) kws) as [|e]; [discriminate|]. destruct e; try discriminate. reflexivity.
    + intros [H|[c' [H H2]]]; [discriminate|]. injection H as <-. rewrite H2. reflexivity.
  - split; auto.
Qed.
Lemma members_none : forall (l : list (ustr * cls)) m n, (forall c, by_name m n = Some c <-> In (n, c) l) ->
  (by_name m n = None <-> forall c, ~ In (n, c) l).
Proof.
  intros l m n H. split.
  - intros Hn c Hc. apply H in Hc. congruence.
  - intro Hc. destruct (by_name m n) as [c|] eqn:E; [|reflexivity]. exfalso. apply (Hc c). apply H. reflexivity.
Qed.
Lemma member_name : forall n c, In (n, c) members_oauth2 \/ In (n, c) members_oidc -> cls_name c = n.
Proof.
  intros n c [H|H].
  - apply oauth2_by_name in H. apply by_name_spec in H; [tauto|apply nodup_ub; vm_compute; reflexivity].
  - apply oidc_by_name in H. apply by_name_spec in H; [tauto|apply nodup_ub; vm_compute; reflexivity].
Qed.

Lemma c78_oauth2 : forall n kws c d, oauth2_factory n kws = Ok (Some (c, d)) <->
  In (n, c) members_oauth2 /\ construct (cdef c) kws = Ok d.
Proof. intros. unfold oauth2_factory. rewrite find_construct_some, oauth2_by_name. reflexivity. Qed.
Lemma c78_oauth2_none : forall n kws, oauth2_factory n kws = Ok None <->
  (forall c, ~ In (n, c) members_oauth2) \/
  exists c, In (n, c) members_oauth2 /\ construct (cdef c) kws = Err EAttributeError.
Proof.
  intros n kws. unfold oauth2_factory. rewrite find_construct_none.
  rewrite (members_none members_oauth2 oauth2_members n) by (intro; apply oauth2_by_name).
  split; (intros [H|[c [H1 H2]]]; [left; assumption|right; exists c; split; [apply oauth2_by_name; assumption|assumption]]).
Qed.
Lemma c78_oidc : forall n kws c, In (n, c) members_oidc ->
  (forall d, construct (cdef c) kws = Ok d -> oidc_factory n kws = Ok (Some (c, d))) /\
  (forall e, e <> EAttributeError -> construct (cdef c) kws = Err e -> oidc_factory n kws = Err e).
Proof.
  intros n kws c H. apply oidc_by_name in H. split.
  - intros d Hd. unfold oidc_factory. rewrite (proj2 (find_construct_some oidc_members n kws c d)) by auto. reflexivity.
  - intros e He Hd. unfold oidc_factory, find_construct. rewrite H, Hd. destruct e; try reflexivity. congruence.
Qed.
Lemma c78_oidc_other : forall n kws, (forall c, ~ In (n, c) members_oidc) -> oidc_factory n kws = oauth2_factory n kws.
Proof.
  intros n kws H. apply (members_none members_oidc oidc_members n) in H; [|intro; apply oidc_by_name].
  unfold oidc_factory, find_construct at 1. rewrite H. reflexivity.
Qed.
