(** IdToken.verify, verify_id_token and JsonWebToken.verify. *)
From Coq Require Import List NArith ZArith QArith Bool String Lia ZifyBool ZifyN.
From Verif Require Import Base.Ustr Base.UstrLemmas Model.Cls Model.Value Model.Pspec Model.Tables Model.Json
  Model.Message Model.Env Model.Verify Spec.MessageSpec Spec.VerifySpec
  Proofs.ValueLemmas Proofs.MessageLemmas Proofs.EncodeLemmas Proofs.VerifyLemmas Proofs.DateLemmas Proofs.TokenLemmas.
Import ListNotations.
Open Scope list_scope.
Open Scope N_scope.

(** ** IdToken.verify *)
Lemma schema_verify_any : forall C d, (exists b, schema_verify C d = Ok b) <-> schema_ok C d.
Proof.
  intros C d. split.
  - intros [b H]. apply schema_verify_ok in H. tauto.
  - intro H. destruct (existsb (fun kv => match snd kv with VNone => true | _ => false end) d) eqn:E.
    + exists false. apply schema_verify_ok. split; [assumption|]. split; [discriminate|]. intro N. exfalso. apply N.
      apply existsb_exists in E. destruct E as [[k v] [Hin Hv]]. destruct v; try discriminate. exists k. assumption.
    + exists true. apply schema_verify_ok. split; [assumption|]. split; [|reflexivity]. intros _ [k Hk].
      assert (Ht : existsb (fun kv => match snd kv with VNone => true | _ => false end) d = true)
        by (apply existsb_exists; exists (k, VNone); auto). congruence.
Qed.

Lemma agree_sym : forall a b, (forall x y, a = Some x -> b = Some y -> py_eq y x = true) <-> agree b a.
Proof. intros a b. unfold agree. split; intros H x y Hx Hy; apply H; assumption. Qed.

Lemma idtoken_times_ok : forall E K d, idtoken_times E K d = Ok tt <->
  (exists e, dget d (u "exp") = Some e /\ exp_ok (e_now E) K e) /\
  (exists t, dget d (u "iat") = Some t /\ iat_fresh (e_now E) K t).
Proof.
  intros E K d. unfold idtoken_times. rewrite bind_ok_iff. split.
  - intros [[] [H1 H2]]. split.
    + destruct (dget d (u "exp")) as [e|]; [|discriminate]. exists e. split; [reflexivity|]. apply exp_check. exact H1.
    + destruct (dget d (u "iat")) as [t|]; [|discriminate]. exists t. split; [reflexivity|]. apply iat_check'. exact H2.
  - intros [[e [He H1]] [t [Ht H2]]]. exists tt. rewrite He, Ht.
    split; [apply exp_check; exact H1|apply iat_check'; exact H2].
Qed.

Lemma idtoken_verify_ok : forall E K C d b, idtoken_verify E K C d = Ok b <->
  (schema_ok C d /\ id_token_rules (e_now E) K d) /\ b = true.
Proof.
  intros E K C d b. unfold idtoken_verify. split.
  - intro H. bo H. bo H. bo H. bo H. bo H. bo H.
    rewrite unit_ok in Hx0, Hx1, Hx2, Hx3, Hx4.
    apply agree_ne in Hx0. apply idtoken_aud_ok in Hx1. apply idtoken_times_ok in Hx3. apply agree_ne in Hx4.
    assert (H2 : agree (kget K (u "client_id")) (dget d (u "azp"))).
    { intros c a Hc Ha. rewrite Hc, Ha in Hx2. apply raise_if_ok in Hx2. destruct Hx2 as [Hx2 _].
      apply py_ne_false in Hx2. assumption. }
    split; [|congruence]. split; [apply schema_verify_any; eauto|]. constructor; tauto.
  - intros [[Hs R] ->]. apply schema_verify_any in Hs. destruct Hs as [b' Hs]. rewrite Hs. cbn [bind].
    destruct R as [R1 R2 R3 R4 R5 R6 R7].
    apply (agree_ne _ _ EIssuerMismatch) in R1. rewrite R1. cbn [bind].
    assert (Ha : idtoken_aud K d = Ok tt) by (apply idtoken_aud_ok; auto). rewrite Ha. cbn [bind].
    assert (Hz : match dget d (u "azp"), kget K (u "client_id") with
                 | Some a, Some c => raise_if (py_ne c a) ENotForMe | _, _ => Ok tt end = Ok tt).
    { destruct (dget d (u "azp")) as [a|], (kget K (u "client_id")) as [c|]; try reflexivity.
      apply raise_if_ok. split; [|reflexivity]. apply py_ne_false. apply R4; reflexivity. }
    rewrite Hz. cbn [bind].
    assert (Ht : idtoken_times E K d = Ok tt) by (apply idtoken_times_ok; auto). rewrite Ht. cbn [bind].
    apply (agree_ne _ _ EValueError) in R7. rewrite R7. reflexivity.
Qed.

(** ** later times, larger skew *)
Lemma exp_ok_mono : forall t t' K e s, arg_int K (u "skew") 0 s -> (t <= t')%Z -> exp_ok t' K e -> exp_ok t K e.
Proof.
  intros t t' K e s Hs Hle. rewrite !(exp_whole _ _ _ _ Hs). intros (q & H2 & H3). exists q. split; [exact H2|].
  eapply Qle_trans; [|exact H3]. rewrite <- Zle_Qle. lia.
Qed.
Lemma iat_fresh_mono : forall t t' K e s, arg_int K (u "skew") 0 s -> (t <= t')%Z -> iat_fresh t' K e -> iat_fresh t K e.
Proof.
  intros t t' K e s Hs Hle. rewrite !(fresh_whole _ _ _ _ Hs). intros (n & x & H1 & H2 & H3). exists n, x. split; [exact H1|]. split; [exact H2|].
  eapply Qle_trans; [|exact H3]. rewrite <- Zle_Qle. lia.
Qed.

Lemma c35_time : forall E E' K C d s, arg_int K (u "skew") 0 s -> (e_now E <= e_now E')%Z ->
  idtoken_verify E' K C d = Ok true -> idtoken_verify E K C d = Ok true.
Proof.
  intros E E' K C d s Hi Hle H. apply idtoken_verify_ok in H. destruct H as [[Hs R] _].
  apply idtoken_verify_ok. split; [|reflexivity]. split; [assumption|].
  destruct R as [R1 R2 R3 R4 [e [He R5]] [t [Ht R6]] R7]. constructor; try assumption.
  - exists e. split; [assumption|]. exact (exp_ok_mono _ _ _ _ _ Hi Hle R5).
  - exists t. split; [assumption|]. exact (iat_fresh_mono _ _ _ _ _ Hi Hle R6).
Qed.


Lemma py_gt_num_err : forall z z' e x, py_gt (VInt z) e = Err x -> py_gt (VInt z') e = Err x.
Proof.
  intros z z' e x H. unfold py_gt, py_lt in *. cbn [num_of] in *. destruct (num_of e); [discriminate|].
  destruct e; assumption.
Qed.
Lemma py_lt_num_err : forall z z' e x, py_lt e (VInt z) = Err x -> py_lt e (VInt z') = Err x.
Proof.
  intros z z' e x H. unfold py_lt in *. cbn [num_of] in *. destruct (num_of e); [discriminate|].
  destruct e; assumption.
Qed.
Lemma sub_whole : forall K s t, arg_int K (u "skew") 0 s -> py_sub (VInt t) (karg K (u "skew") (VInt 0)) = Ok (VInt (t - s)).
Proof. intros K s t H. apply karg_int in H. unfold py_sub. cbn [int_of]. rewrite H. reflexivity. Qed.

Lemma exp_late : forall K e t t' s, arg_int K (u "skew") 0 s -> (t <= t')%Z ->
  (do x <- py_sub (VInt t) (karg K (u "skew") (VInt 0)) ; do b <- py_gt x e ; raise_if b EEXPError) = Err EEXPError ->
  (do x <- py_sub (VInt t') (karg K (u "skew") (VInt 0)) ; do b <- py_gt x e ; raise_if b EEXPError) = Err EEXPError.
Proof.
  intros K e t t' s Hi Hle H.
  set (r := do x <- py_sub (VInt t') (karg K (u "skew") (VInt 0)) ; do b <- py_gt x e ; raise_if b EEXPError).
  destruct r as [[]|e'] eqn:E.
  - exfalso. apply exp_check in E. apply (exp_ok_mono t _ _ _ s Hi) in E; [|assumption]. apply exp_check in E. congruence.
  - f_equal. subst r. revert H E. rewrite !(sub_whole _ _ _ Hi). cbn [bind].
    intros H E. apply bind_err in E. destruct E as [E|[b [E1 E2]]].
    * rewrite (py_gt_num_err _ (t - s) _ _ E) in H. cbn in H. injection H as ->. reflexivity.
    * apply raise_if_err in E2. tauto.
Qed.

Lemma c35_reject : forall E E' K C d e s, arg_int K (u "skew") 0 s -> (e_now E <= e_now E')%Z ->
  idtoken_verify E K C d = Err e -> late e -> exists e', idtoken_verify E' K C d = Err e' /\ late e'.
Proof.
  intros E E' K C d e s Hi Hle H He.
  unfold idtoken_verify in *.
  destruct (schema_verify C d) as [x|x]; cbn [bind] in *; [|eauto].
  destruct (match kget K (u "iss") with Some a => match dget d (u "iss") with
    Some b => raise_if (py_ne a b) EIssuerMismatch | None => Ok tt end | None => Ok tt end) as [x0|x0]; cbn [bind] in *; [|eauto].
  destruct (idtoken_aud K d) as [x1|x1]; cbn [bind] in *; [|eauto].
  match type of H with (do _ <- ?m ; _) = _ => destruct m as [x2|x2]; cbn [bind] in *; [|eauto] end.
  destruct (idtoken_times E K d) as [x3|x3] eqn:Et; cbn [bind] in *.
  - exfalso. apply bind_err in H. destruct H as [H|[y [_ H]]]; [|discriminate].
    destruct (kget K (u "nonce")) as [a|]; [|discriminate]. destruct (dget d (u "nonce")) as [b|]; [|discriminate].
    apply raise_if_err in H. destruct H as [_ ->]. destruct He; discriminate.
  - injection H as ->.
    assert (G : exists e', idtoken_times E' K d = Err e' /\ late e').
    { unfold idtoken_times in *. cbv zeta in *.
      destruct (dget d (u "exp")) as [v|]; [|exists e; cbn [bind] in *; auto].
      apply bind_err in Et. destruct Et as [Et|[y [Ey Et]]].
      - exists EEXPError. split; [|left; reflexivity].
        assert (e = EEXPError).
        { destruct He as [->| ->]; [reflexivity|]. exfalso. revert Et. rewrite (sub_whole _ _ _ Hi). cbn [bind].
          intro Et. apply bind_err in Et. destruct Et as [Et|[b [_ Et]]].
            + unfold py_gt, py_lt in Et. cbn [num_of] in Et. destruct (num_of v); [discriminate|]. destruct v; discriminate.
            + apply raise_if_err in Et. destruct Et; discriminate. }
        subst e. rewrite (exp_late _ _ _ _ _ Hi Hle Et). reflexivity.
      - destruct y. set (r := do x <- py_sub (VInt (e_now E')) (karg K (u "skew") (VInt 0)) ; do b <- py_gt x v ; raise_if b EEXPError).
        destruct r as [[]|e2] eqn:Er; cbn [bind].
        + destruct (dget d (u "iat")) as [w|]; [|eauto].
          set (r2 := do x <- py_add w (karg K (u "nonce_storage_time") (VInt nonce_storage_time)) ;
                    do y <- py_sub (VInt (e_now E')) (karg K (u "skew") (VInt 0)) ; do b <- py_lt x y ; raise_if b EIATError) in *.
          destruct r2 as [[]|e3] eqn:Er2.
          * exfalso. apply iat_check' in Er2. apply (iat_fresh_mono (e_now E) _ _ _ s Hi) in Er2; [|assumption].
            apply iat_check' in Er2. congruence.
          * exists e3. split; [reflexivity|]. subst r2.
            destruct (py_add w _) as [q|q]; cbn [bind] in *; [|congruence].
            revert Et Er2. rewrite !(sub_whole _ _ _ Hi). cbn [bind].
            intros Et Er2. apply bind_err in Er2. destruct Er2 as [Er2|[b [_ Er2]]].
            -- rewrite (py_lt_num_err _ (e_now E - s) _ _ Er2) in Et. cbn [bind] in Et. congruence.
            -- apply raise_if_err in Er2. right. tauto.
        + exists e2. split; [reflexivity|]. left. subst r. revert Ey Er. rewrite !(sub_whole _ _ _ Hi). cbn [bind].
          intros Ey Er. apply bind_err in Er. destruct Er as [Er|[b [_ Er]]].
          * rewrite (py_gt_num_err _ (e_now E - s) _ _ Er) in Ey. discriminate.
          * apply raise_if_err in Er. tauto. }
    destruct G as [e' [G1 G2]]. rewrite G1. cbn [bind]. eauto.
Qed.

(** the same arguments but for the skew *)
Lemma arg_int_fun : forall K k z a b, arg_int K k z a -> arg_int K k z b -> a = b.
Proof.
  intros K k z a b [[H1 ->]|[v [H1 H2]]] [[H3 ->]|[w [H3 H4]]]; try congruence.
Qed.

Lemma exp_ok_skew : forall t K K' s s' e, arg_int K (u "skew") 0 s -> arg_int K' (u "skew") 0 s' -> (s <= s')%Z ->
  exp_ok t K e -> exp_ok t K' e.
Proof.
  intros t K K' s s' e Hs Hs' Hle. rewrite (exp_whole _ _ _ _ Hs), (exp_whole _ _ _ _ Hs'). intros (q & H2 & H3).
  exists q. split; [exact H2|]. eapply Qle_trans; [|exact H3]. rewrite <- Zle_Qle. lia.
Qed.

Lemma c35_skew : forall E K K' C d s s', same_but_skew K K' ->
  arg_int K (u "skew") 0 s -> arg_int K' (u "skew") 0 s' -> (s <= s')%Z ->
  idtoken_verify E K C d = Ok true -> idtoken_verify E K' C d = Ok true.
Proof.
  intros E K K' C d s s' Hk Hs Hs' Hle H. apply idtoken_verify_ok in H. destruct H as [[Ho R] _].
  apply idtoken_verify_ok. split; [|reflexivity]. split; [assumption|].
  destruct R as [R1 R2 R3 R4 [e [He R5]] [t [Ht R6]] R7].
  assert (Q : forall k, k <> u "skew" -> kget K' k = kget K k) by exact Hk.
  constructor.
  - rewrite Q by discriminate. assumption.
  - rewrite Q by discriminate. assumption.
  - assumption.
  - rewrite Q by discriminate. assumption.
  - exists e. split; [assumption|]. exact (exp_ok_skew _ _ _ _ _ _ Hs Hs' Hle R5).
  - exists t. split; [assumption|]. apply (fresh_whole _ _ _ _ Hs) in R6. destruct R6 as (n & x & H1 & H2 & H3).
    apply (fresh_whole _ _ _ _ Hs'). exists n, x. split; [unfold arg in *; rewrite Q by discriminate; assumption|]. split; [exact H2|].
    eapply Qle_trans; [|exact H3]. rewrite <- Zle_Qle. lia.
  - rewrite Q by discriminate. assumption.
Qed.

(** ** JsonWebToken.verify *)
Lemma iat_max_check : forall now K t e,
  (do x <- py_add (VInt now) (karg K (u "skew") (VInt 0)) ; do b <- py_gt t x ; raise_if b e) = Ok tt <-> iat_past now K t.
Proof.
  intros now K t e. unfold iat_past. split.
  - intro H. bo H. bo H. destruct (add_num _ _ _ Hx) as [r Hr]. apply raise_if_ok in H. destruct H as [-> _].
    apply (py_gt_right _ _ _ Hr) in Hx0. destruct Hx0 as [q [H1 H2]].
    exists (karg K (u "skew") (VInt 0)), r, q. split; [apply karg_arg; reflexivity|]. split; [apply add_total; eauto|]. auto.
  - intros (s & r & q & Hs & Hd & Hq & Hle). apply karg_arg in Hs. subst s. apply add_total in Hd. destruct Hd as (x & Hx & Hr).
    rewrite Hx. cbn [bind]. assert (H2 : py_gt t x = Ok false) by (apply (py_gt_right _ _ _ Hr); eauto). rewrite H2. reflexivity.
Qed.
Lemma nbf_check : forall now K t e,
  (do x <- py_sub (VInt now) (karg K (u "skew") (VInt 0)) ; do b <- py_gt t x ; raise_if b e) = Ok tt <-> nbf_past now K t.
Proof.
  intros now K t e. unfold nbf_past. split.
  - intro H. bo H. bo H. destruct (sub_num _ _ _ Hx) as [r Hr]. apply raise_if_ok in H. destruct H as [-> _].
    apply (py_gt_right _ _ _ Hr) in Hx0. destruct Hx0 as [q [H1 H2]].
    exists (karg K (u "skew") (VInt 0)), r, q. split; [apply karg_arg; reflexivity|]. split; [apply sub_difference; eauto|]. auto.
  - intros (s & r & q & Hs & Hd & Hq & Hle). apply karg_arg in Hs. subst s. apply sub_difference in Hd. destruct Hd as (x & Hx & Hr).
    rewrite Hx. cbn [bind]. assert (H2 : py_gt t x = Ok false) by (apply (py_gt_right _ _ _ Hr); eauto). rewrite H2. reflexivity.
Qed.
Lemma opt_check : forall (o : option value) (f : value -> res unit) (P : value -> Prop),
  (forall v, f v = Ok tt <-> P v) ->
  (match o with None => Ok tt | Some v => f v end = Ok tt <-> forall v, o = Some v -> P v).
Proof.
  intros [v|] f P H; split.
  - intros G w Hw. injection Hw as <-. apply H. assumption.
  - intro G. apply H. apply G. reflexivity.
  - intros _ w Hw. discriminate.
  - reflexivity.
Qed.

Lemma jwt_verify_ok : forall E K C d b, jwt_verify E K C d = Ok b <->
  (table_ok C d /\ jwt_rules (e_now E) K d) /\ b = true.
Proof.
  intros E K C d b. unfold jwt_verify. split.
  - intro H. bo H. bo H. bo H. bo H. bo H. bo H.
    rewrite unit_ok in Hx0, Hx1, Hx2, Hx3, Hx4.
    apply verify_base_true in Hx.
    pose proof (proj1 (opt_check (dget d (u "exp")) _ _ (fun v => exp_check (e_now E) K v)) Hx0) as GHx0. clear Hx0. rename GHx0 into Hx0.
    pose proof (proj1 (opt_check (dget d (u "iat")) _ _ (fun v => iat_max_check (e_now E) K v EEXPError)) Hx1) as GHx1. clear Hx1. rename GHx1 into Hx1.
    pose proof (proj1 (opt_check (dget d (u "nbf")) _ _ (fun v => nbf_check (e_now E) K v EEXPError)) Hx2) as GHx2. clear Hx2. rename GHx2 into Hx2.
    apply agree_ne in Hx4.
    split; [|congruence]. split; [tauto|]. constructor; try assumption.
    + intros aud a Ha Hk. rewrite Ha, Hk in Hx3. bo Hx3. apply raise_if_ok in Hx3. destruct Hx3 as [-> _].
      apply not_in_false. assumption.
  - intros [[Ht R] ->]. destruct R as [R1 R2 R3 R4 R5].
    assert (Hb : verify_base C d = Ok true) by (apply verify_base_true; auto). rewrite Hb. cbn [bind].
    assert (H1 : match dget d (u "exp") with None => Ok tt | Some e =>
        do x <- py_sub (VInt (e_now E)) (karg K (u "skew") (VInt 0)) ; do b <- py_gt x e ; raise_if b EEXPError end = Ok tt).
    { apply (proj2 (opt_check (dget d (u "exp")) _ _ (fun v => exp_check (e_now E) K v))). assumption. }
    rewrite H1. cbn [bind]. clear H1.
    assert (H1 : match dget d (u "iat") with None => Ok tt | Some t =>
        do x <- py_add (VInt (e_now E)) (karg K (u "skew") (VInt 0)) ; do b <- py_gt t x ; raise_if b EEXPError end = Ok tt).
    { apply (proj2 (opt_check (dget d (u "iat")) _ _ (fun v => iat_max_check (e_now E) K v EEXPError))). assumption. }
    rewrite H1. cbn [bind]. clear H1.
    assert (H1 : match dget d (u "nbf") with None => Ok tt | Some t =>
        do x <- py_sub (VInt (e_now E)) (karg K (u "skew") (VInt 0)) ; do b <- py_gt t x ; raise_if b EEXPError end = Ok tt).
    { apply (proj2 (opt_check (dget d (u "nbf")) _ _ (fun v => nbf_check (e_now E) K v EEXPError))). assumption. }
    rewrite H1. cbn [bind]. clear H1.
    assert (H1 : match dget d (u "aud"), kget K (u "aud") with
          | Some aud, Some a => do b <- not_in a aud ; raise_if b ENotForMe | _, _ => Ok tt end = Ok tt).
    { destruct (dget d (u "aud")) as [aud|]; [|reflexivity]. destruct (kget K (u "aud")) as [a|]; [|reflexivity].
      pose proof (R4 aud a eq_refl eq_refl) as H. apply not_in_false in H. rewrite H. reflexivity. }
    rewrite H1. cbn [bind]. clear H1.
    apply (agree_ne _ _ EValueError) in R5. rewrite R5. reflexivity.
Qed.

Lemma c40_partial : forall E K K' C d s s', same_but_skew K K' ->
  arg_int K (u "skew") 0 s -> arg_int K' (u "skew") 0 s' -> (s <= s')%Z -> dget d (u "nbf") = None ->
  jwt_verify E K C d = Ok true -> jwt_verify E K' C d = Ok true.
Proof.
  intros E K K' C d s s' Hk Hs Hs' Hle Hn H. apply jwt_verify_ok in H. destruct H as [[Ho R] _].
  apply jwt_verify_ok. split; [|reflexivity]. split; [assumption|].
  destruct R as [R1 R2 R3 R4 R5].
  assert (Q : forall k, k <> u "skew" -> kget K' k = kget K k) by exact Hk.
  constructor.
  - intros e He. exact (exp_ok_skew _ _ _ _ _ _ Hs Hs' Hle (R1 e He)).
  - intros e He. pose proof (R2 e He) as G. apply (past_whole _ _ _ _ Hs) in G. apply (past_whole _ _ _ _ Hs'). destruct G as (q & H2 & H3).
    exists q. split; [exact H2|]. eapply Qle_trans; [exact H3|]. rewrite <- Zle_Qle. lia.
  - congruence.
  - rewrite Q by discriminate. assumption.
  - rewrite Q by discriminate. assumption.
Qed.

(** ** verify_id_token *)
Lemma getitem_ok : forall d k v, getitem d k = Ok v <-> dget d k = Some v.
Proof. intros d k v. unfold getitem. destruct (dget d k); split; congruence. Qed.

Lemma check_id_token_inv : forall E i K ch claim msg idt, check_id_token E i K ch claim msg = Ok (Some idt) ->
  exists v tok signed body t hdr, dget msg claim = Some v /\ e_jws E v = Ok (Some tok) /\
    alg_check K tok = Ok signed /\ t_body tok = Ok body /\ issuer_check E K signed body = Ok tt /\
    py_str_e E v = Ok t /\
    from_jwt E i (cdef C_oidc_IdToken) t (kw_jar K) (verify_arg K) (id_token_args K) = Ok (idt, hdr) /\
    idtoken_verify E K (cdef C_oidc_IdToken) idt = Ok true /\
    (signed = true -> ch = true -> hashes_check E msg idt hdr = Ok tt).
Proof.
  intros E i K ch claim msg idt H. unfold check_id_token in H.
  bo H. bo H. destruct x0 as [tok|]; [|discriminate].
  bo H. bo H. bo H. bo H. bo H. destruct x4 as [idt' hdr]. bo H. destruct x4; [|discriminate].
  bo H. injection H as <-. apply getitem_ok in Hx.
  exists x, tok, x0, x1, x3, hdr. apply unit_ok in Hx3. repeat split; try assumption.
  intros -> ->. cbn [andb] in Hx7. apply unit_ok in Hx7. assumption.
Qed.

Lemma py_str_text : forall E s t, py_str_e E (VStr s) = Ok t -> t = s.
Proof. intros E s t H. unfold py_str_e in H. cbn in H. congruence. Qed.

Lemma alg_check_true : forall K tok b, alg_check K tok = Ok b -> (b = true <-> signed_tok tok).
Proof.
  intros K tok b H. unfold alg_check in H. unfold signed_tok.
  destruct (dget (t_hdr tok) (u "alg")) as [alg|]; [|discriminate].
  destruct (py_eq alg (VStr (u "none"))) eqn:En.
  - apply py_eq_str_r in En. subst alg.
    assert (b = false).
    { destruct (py_eq (karg K (u "sigalg") VNone) (VStr (u "none"))); [congruence|].
      destruct (karg K (u "allow_sign_alg_none") (VBool false)) as [|[|]| | | | | |]; congruence. }
    subst b. split; [discriminate|congruence].
  - assert (Hne : Some alg <> Some (VStr (u "none"))).
    { intro Hc. injection Hc as ->. assert (py_eq (VStr (u "none")) (VStr (u "none")) = true) by (apply py_eq_str_r; reflexivity). congruence. }
    destruct (kget K (u "allowed_sign_alg")) as [a|].
    + destruct (py_ne alg a); [discriminate|]. injection H as <-. tauto.
    + injection H as <-. tauto.
Qed.

Lemma alg_check_none : forall K tok b, alg_check K tok = Ok b -> dget (t_hdr tok) (u "alg") = Some (VStr (u "none")) ->
  kget K (u "sigalg") = Some (VStr (u "none")) \/
  exists v, kget K (u "allow_sign_alg_none") = Some v /\ v <> VBool false.
Proof.
  intros K tok b H Ha. unfold alg_check in H. rewrite Ha in H.
  change (py_eq (VStr (u "none")) (VStr (u "none"))) with true in H.
  destruct (py_eq (karg K (u "sigalg") VNone) (VStr (u "none"))) eqn:E1.
  - left. apply py_eq_str_r in E1. unfold karg in E1. destruct (kget K (u "sigalg")); [congruence|discriminate].
  - right. unfold karg in H. destruct (kget K (u "allow_sign_alg_none")) as [v|]; [|discriminate].
    exists v. split; [reflexivity|]. intros ->. discriminate.
Qed.

Lemma alg_check_allowed : forall K tok b a, alg_check K tok = Ok b -> signed_tok tok ->
  kget K (u "allowed_sign_alg") = Some a ->
  exists alg, dget (t_hdr tok) (u "alg") = Some alg /\ py_eq alg a = true.
Proof.
  intros K tok b a H Hs Ha. unfold alg_check in H. unfold signed_tok in Hs.
  destruct (dget (t_hdr tok) (u "alg")) as [alg|]; [|discriminate]. exists alg. split; [reflexivity|].
  destruct (py_eq alg (VStr (u "none"))) eqn:En; [apply py_eq_str_r in En; congruence|].
  rewrite Ha in H. destruct (py_ne alg a) eqn:E; [discriminate|]. apply py_ne_false. assumption.
Qed.

Lemma issuer_check_ok : forall E K body, issuer_check E K true body = Ok tt -> kw_jar K = true ->
  exists iss, py_item body (u "iss") = Ok iss /\ e_kj_in E iss = Ok true.
Proof.
  intros E K body H Hj. unfold issuer_check in H. rewrite Hj in H. cbn [andb] in H.
  destruct (py_item body (u "iss")) as [i|e]; cbn [bind] in H.
  - exists i. split; [reflexivity|]. destruct (e_kj_in E i) as [[|]|e]; [reflexivity|discriminate|destruct e; discriminate].
  - destruct e; discriminate.
Qed.

(** what acceptance of an ID Token text means *)
Lemma check_id_token_text : forall E i K ch claim msg idt t, check_id_token E i K ch claim msg = Ok (Some idt) ->
  dget msg claim = Some (VStr t) -> not_encrypted E t ->
  exists tok body, e_jws E (VStr t) = Ok (Some tok) /\ t_body tok = Ok body /\ kw_jar K = true /\
    from_dict (cdef C_oidc_IdToken) (cd_default (cdef C_oidc_IdToken)) body = (idt, Ok tt) /\
    id_token_accepted E K ch msg t tok body idt.
Proof.
  intros E i K ch claim msg idt t H Ht Hn. apply check_id_token_inv in H.
  destruct H as [v [tok [signed [body [t2 [hdr [H1 [H2 [H3 [H4 [H5 [H6 [H7 [H8 H9]]]]]]]]]]]]]].
  rewrite Ht in H1. injection H1 as <-. apply py_str_text in H6. subst t2.
  pose proof (from_jwt_inv _ _ _ _ _ _ _ _ _ H7) as Hinv.
  destruct Hinv as [Hj [t' [p [Hd [Hf Hs]]]]].
  rewrite not_encrypted_decrypt in Hd by assumption. injection Hd as <-.
  destruct Hs as [[tok2 [Hs1 [Hs2 [Hs3 Hs4]]]]|[Hs1 _]]; [|congruence].
  rewrite H2 in Hs1. injection Hs1 as <-. rewrite H4 in Hs2. injection Hs2 as <-. subst hdr.
  exists tok, body. repeat (split; [assumption|]).
  pose proof (alg_check_true _ _ _ H3) as Hsig.
  apply idtoken_verify_ok in H8. destruct H8 as [[Hsc Hru] _].
  constructor.
  - exact Hsc.
  - exact Hru.
  - intros Hst Hv. assert (Hva : verify_arg K = true).
    { unfold verify_arg. destruct (kget K (u "verify")) as [w|]; [|reflexivity].
      destruct (truthy w) eqn:Et; [reflexivity|]. exfalso. apply truthy_empty in Et. exact (Hv w eq_refl Et). }
    rewrite Hva in Hs4. exists (id_token_args K). split; [apply id_token_args_passed|].
    exact (jwt_check_sig _ _ _ _ _ Hs4 Hst).
  - intro Hal. exact (alg_check_none _ _ _ H3 Hal).
  - intros a Hst Ha. exact (alg_check_allowed _ _ _ _ H3 Hst Ha).
  - intro Hst. apply Hsig in Hst. subst signed. destruct (issuer_check_ok _ _ _ H5 Hj) as [iss [G1 G2]].
    exists iss. split; [|assumption]. unfold py_item in G1.
    destruct body; try discriminate; (destruct (dget d (u "iss")) eqn:Ei; [|discriminate]); injection G1 as <-;
      [left|right]; eauto.
  - intros Hst Hch. apply Hsig in Hst. specialize (H9 Hst Hch). unfold hashes_check in H9.
    destruct (dget (t_hdr tok) (u "alg")) as [[| | | |alg| | |]|]; try discriminate.
    bo H9. apply unit_ok in Hx.
    assert (G : forall p ha e x, hash_check E msg idt p ha (u "HS" ++ last3 alg) e = Ok tt -> dget msg p = Some x ->
      exists h y, dget idt ha = Some h /\ e_lhash E x (u "HS" ++ last3 alg) = Ok y /\ py_eq h y = true).
    { intros q ha e w Hh Hp. unfold hash_check in Hh. rewrite Hp in Hh. destruct (dget idt ha) as [h|]; [|discriminate].
      bo Hh. apply raise_if_ok in Hh. destruct Hh as [Hh _]. apply py_ne_false in Hh. exists h. eauto. }
    exists alg, (u "HS" ++ last3 alg). split; [reflexivity|]. split.
    + exists (firstn (List.length alg - 3) alg), (last3 alg). split; [symmetry; apply firstn_skipn|].
      split; [reflexivity|]. unfold last3. rewrite skipn_length.
      destruct (Nat.le_gt_cases 3 (List.length alg)).
      * left. lia.
      * right. replace (List.length alg - 3)%nat with 0%nat by lia. split; [reflexivity|lia].
    + split; intros w Hp; eapply G; eassumption.
Qed.
