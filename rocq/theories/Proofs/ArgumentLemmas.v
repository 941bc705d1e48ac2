(** verify() with other keyword arguments. *)
From Coq Require Import List NArith ZArith Bool String.
From Verif Require Import Base.Ustr Base.UstrLemmas Model.Cls Model.Value Model.Pspec Model.Tables Model.Message Model.Env Model.Verify
  Spec.ArgumentSpec Proofs.ValueLemmas Proofs.MessageLemmas Proofs.TypeLemmas.
Import ListNotations.
Open Scope list_scope.
Open Scope N_scope.

(** ** C130: more expectations *)
Definition le {A} (r1 r2 : res A) : Prop := forall x, r2 = Ok x -> r1 = Ok x.
Definition leS (p1 p2 : dict value * res bool) : Prop := forall d', p2 = (d', Ok true) -> p1 = (d', Ok true).
Lemma le_refl : forall A (r : res A), le r r.
Proof. intros A r x H. exact H. Qed.
Lemma le_eq : forall A (r1 r2 : res A), r1 = r2 -> le r1 r2.
Proof. intros A r1 r2 -> x H. exact H. Qed.
Lemma leS_refl : forall p, leS p p.
Proof. intros p x H. exact H. Qed.
Lemma le_bind : forall A B (r1 r2 : res A) (f1 f2 : A -> res B), le r1 r2 -> (forall x, le (f1 x) (f2 x)) -> le (bind r1 f1) (bind r2 f2).
Proof.
  intros A B r1 r2 f1 f2 H F y. destruct r2 as [x|e] eqn:E2; [|discriminate]. rewrite (H x eq_refl). cbn [bind]. apply F.
Qed.
Lemma le_bind_unit : forall B (r1 r2 : res unit) (f1 f2 : unit -> res B), le r1 r2 -> le (f1 tt) (f2 tt) -> le (bind r1 f1) (bind r2 f2).
Proof. intros B r1 r2 f1 f2 H F. apply le_bind; [exact H|]. intros []. exact F. Qed.

Section Strict.
Variables (E : env) (K1 K2 : kwargs).
Hypothesis HS : stricter K2 K1.
Hypothesis HK : forall i b tok, e_kj_keys E i b tok (id_token_args K1) = e_kj_keys E i b tok (id_token_args K2).

Lemma st_jar : kw_jar K1 = kw_jar K2.
Proof. exact (proj1 HS). Qed.
Lemma st_same : forall k, umem k (expectations ++ indulgences) = false -> kget K1 k = kget K2 k.
Proof.
  intros k H. destruct (proj2 HS k) as [e|[[I _]|[I _]]]; [exact e| |]; exfalso;
  assert (X : umem k (expectations ++ indulgences) = true) by (apply umem_In, in_or_app; tauto); congruence.
Qed.
Lemma st_exp : forall k, umem k indulgences = false -> kget K1 k = kget K2 k \/ kget K1 k = None.
Proof.
  intros k H. destruct (proj2 HS k) as [e|[[_ e]|[I _]]]; [left; exact e|right; exact e|].
  exfalso. apply umem_In in I. congruence.
Qed.
Lemma st_ind : forall k, umem k expectations = false -> kget K1 k = kget K2 k \/ kget K2 k = None.
Proof.
  intros k H. destruct (proj2 HS k) as [e|[[I _]|[_ e]]]; [left; exact e| |right; exact e].
  exfalso. apply umem_In in I. congruence.
Qed.
Lemma st_karg : forall k v, umem k (expectations ++ indulgences) = false -> karg K1 k v = karg K2 k v.
Proof. intros k v H. unfold karg. rewrite (st_same k H). reflexivity. Qed.
Lemma st_pick : forall l, forallb (fun k => negb (umem k (expectations ++ indulgences))) l = true -> pick l K1 = pick l K2.
Proof.
  intros l H. unfold pick. f_equal. apply map_ext_in. intros k Hk. rewrite st_same; [reflexivity|].
  rewrite forallb_forall in H. specialize (H k Hk). destruct (umem _ _); [discriminate|reflexivity].
Qed.
(** a check of the message against an expected value *)
Lemma le_expected : forall A k (o : option A) (f : A -> value -> res unit), umem k indulgences = false ->
  le match o, kget K1 k with Some a, Some b => f a b | _, _ => Ok tt end match o, kget K2 k with Some a, Some b => f a b | _, _ => Ok tt end.
Proof.
  intros A k o f H. destruct (st_exp k H) as [e|e]; rewrite e; [apply le_refl|].
  destruct o; [|apply le_refl]. intros [] _. reflexivity.
Qed.
Lemma le_expected' : forall A k (o : option A) (f : value -> A -> res unit), umem k indulgences = false ->
  le match kget K1 k, o with Some b, Some a => f b a | _, _ => Ok tt end match kget K2 k, o with Some b, Some a => f b a | _, _ => Ok tt end.
Proof.
  intros A k o f H. destruct (st_exp k H) as [e|e]; rewrite e; [apply le_refl|]. intros [] _. reflexivity.
Qed.

Lemma st_authz_response : forall C d, le (authz_response_verify K1 C d) (authz_response_verify K2 C d).
Proof.
  intros C d. unfold authz_response_verify. apply le_bind; [apply le_refl|intros _].
  apply le_bind_unit; [apply le_expected; reflexivity|]. apply le_bind_unit; [apply le_expected; reflexivity|]. apply le_refl.
Qed.
Lemma st_request_args : request_args K1 = request_args K2.
Proof. apply st_pick. reflexivity. Qed.
Lemma st_aud : forall d, le (idtoken_aud K1 d) (idtoken_aud K2 d).
Proof.
  intro d. unfold idtoken_aud. destruct (dget d (u "aud")) as [aud|]; [|apply le_refl]. apply le_bind_unit; [|apply le_refl].
  destruct (st_exp (u "client_id") eq_refl) as [e|e]; rewrite e; [apply le_refl|]. intros [] _. reflexivity.
Qed.
Lemma st_times : forall d, idtoken_times E K1 d = idtoken_times E K2 d.
Proof.
  intro d. unfold idtoken_times. rewrite (st_karg (u "skew")) by reflexivity. rewrite (st_karg (u "nonce_storage_time")) by reflexivity. reflexivity.
Qed.
Lemma st_idtoken : forall C d, le (idtoken_verify E K1 C d) (idtoken_verify E K2 C d).
Proof.
  intros C d. unfold idtoken_verify. apply le_bind; [apply le_refl|intros _].
  apply le_bind_unit; [apply le_expected'; reflexivity|]. apply le_bind_unit; [apply st_aud|].
  apply le_bind_unit; [apply le_expected; reflexivity|]. apply le_bind_unit; [apply le_eq, st_times|].
  apply le_bind_unit; [apply le_expected'; reflexivity|]. apply le_refl.
Qed.
Lemma st_alg : forall tok, le (alg_check K1 tok) (alg_check K2 tok).
Proof.
  intro tok. unfold alg_check. destruct (dget (t_hdr tok) (u "alg")) as [alg|]; [|apply le_refl].
  destruct (py_eq alg (VStr (u "none"))).
  - rewrite (st_karg (u "sigalg")) by reflexivity. destruct (py_eq (karg K2 (u "sigalg") VNone) (VStr (u "none"))); [apply le_refl|].
    unfold karg. destruct (st_ind (u "allow_sign_alg_none") eq_refl) as [e|e]; rewrite e; [apply le_refl|]. intros x Hx. discriminate.
  - destruct (st_exp (u "allowed_sign_alg") eq_refl) as [e|e]; rewrite e; [apply le_refl|].
    destruct (kget K2 (u "allowed_sign_alg")) as [a|]; [|apply le_refl]. destruct (py_ne alg a); [|apply le_refl]. intros x Hx. discriminate.
Qed.
Lemma st_issuer : forall s b, issuer_check E K1 s b = issuer_check E K2 s b.
Proof. intros s b. unfold issuer_check. rewrite st_jar. reflexivity. Qed.

Lemma pick_dget : forall l K k, dget (pick l K) k = if umem k l then kget K k else None.
Proof.
  intros l K k. unfold pick. induction l as [|n r IH]; [reflexivity|]. cbn [map List.concat umem existsb].
  unfold umem in *. cbn [existsb]. destruct (ueqb k n) eqn:E1.
  - apply ueqb_eq in E1. subst n. cbn [orb]. destruct (kget K k) as [v|] eqn:E2.
    + cbn [app]. cbn [dget]. rewrite ueqb_refl. reflexivity.
    + cbn [app]. rewrite IH. destruct (existsb _ r); [reflexivity|reflexivity].
  - cbn [orb]. destruct (kget K n); cbn [app]; [|exact IH]. cbn [dget]. rewrite E1. exact IH.
Qed.
Lemma st_arg : forall k, umem k (expectations ++ indulgences) = false -> dget (id_token_args K1) k = dget (id_token_args K2) k.
Proof. intros k H. unfold id_token_args. rewrite !pick_dget. rewrite (st_same k H). reflexivity. Qed.
Lemma st_sigalg : jwt_sigalg (id_token_args K1) = jwt_sigalg (id_token_args K2).
Proof. unfold jwt_sigalg. rewrite (st_arg (u "sigalg")) by reflexivity. reflexivity. Qed.
Lemma st_check : forall i t tok, le (jwt_check E i t tok (verify_arg K1) (id_token_args K1)) (jwt_check E i t tok (verify_arg K2) (id_token_args K2)).
Proof.
  intros i t tok. unfold jwt_check. destruct (dget (t_hdr tok) (u "alg")) as [alg|]; [|apply le_refl].
  destruct (py_eq alg (VStr (u "none"))); [apply le_refl|].
  assert (V : verify_arg K1 = verify_arg K2 \/ verify_arg K1 = false).
  { unfold verify_arg. destruct (st_ind (u "verify") eq_refl) as [e|e]; rewrite e; [left; reflexivity|].
    destruct (kget K1 (u "verify")) as [v|]; [|left; reflexivity]. destruct (truthy v); [left|right]; reflexivity. }
  destruct V as [V|V]; rewrite V; [|intros [] _; reflexivity].
  destruct (verify_arg K2); [|apply le_refl]. rewrite st_sigalg.
  destruct (e_kj_true E); [|apply le_refl]. rewrite !HK. apply le_refl.
Qed.
Lemma st_from_jwt : forall i C t, le (from_jwt E i C t (kw_jar K1) (verify_arg K1) (id_token_args K1)) (from_jwt E i C t (kw_jar K2) (verify_arg K2) (id_token_args K2)).
Proof.
  intros i C t. unfold from_jwt. rewrite st_jar. destruct (negb (kw_jar K2)); [apply le_refl|].
  apply le_bind. { unfold jwt_decrypt. rewrite (st_arg (u "encalg")) by reflexivity. rewrite (st_arg (u "encenc")) by reflexivity. apply le_refl. }
  intro t1. apply le_bind; [apply le_refl|]. intros [tok|]; [|apply le_refl].
  apply le_bind; [apply le_refl|intro jso]. apply le_bind; [apply st_check|intros _]. apply le_refl.
Qed.
Lemma st_check_id_token : forall i h claim msg, le (check_id_token E i K1 h claim msg) (check_id_token E i K2 h claim msg).
Proof.
  intros i h claim msg. unfold check_id_token. apply le_bind; [apply le_refl|intro v]. apply le_bind; [apply le_refl|].
  intros [tok|]; [|apply le_refl]. apply le_bind; [apply st_alg|intro s]. apply le_bind; [apply le_refl|intro body].
  apply le_bind_unit; [apply le_eq, st_issuer|]. apply le_bind; [apply le_refl|intro t].
  apply le_bind; [apply st_from_jwt|intros [idt hdr]]. apply le_bind; [apply st_idtoken|intros ok]. apply le_refl.
Qed.
Lemma st_verify_id_token : forall i C h claim msg, leS (verify_id_token E i K1 C h claim msg) (verify_id_token E i K2 C h claim msg).
Proof.
  intros i C h claim msg d'. unfold verify_id_token. pose proof (st_check_id_token i h claim msg) as L.
  destruct (check_id_token E i K2 h claim msg) as [x|e]; [|discriminate]. rewrite (L x eq_refl). destruct x; [tauto|discriminate].
Qed.
Lemma st_with_id_token : forall C h d, leS (with_id_token E K1 C h d) (with_id_token E K2 C h d).
Proof. intros C h d. unfold with_id_token. destruct (dhas d (u "id_token")); [apply st_verify_id_token|apply leS_refl]. Qed.
Lemma leS_checked : forall A (r1 r2 : res A) d f1 f2, le r1 r2 -> (forall x, leS (f1 x) (f2 x)) -> leS (checked r1 d f1) (checked r2 d f2).
Proof.
  intros A r1 r2 d f1 f2 H F d'. unfold checked. destruct r2 as [x|e]; [|discriminate]. rewrite (H x eq_refl). apply F.
Qed.
Lemma leS_pure : forall f1 f2 d, le (f1 d) (f2 d) -> leS (pure f1 d) (pure f2 d).
Proof. intros f1 f2 d H d'. unfold pure. intro X. injection X as <- X. rewrite (H true X). reflexivity. Qed.

Lemma st_rules : forall d, le (request_rules K1 d) (request_rules K2 d).
Proof.
  intro d. unfold request_rules. destruct (dget d (u "response_type")) as [rt|]; [|apply le_refl].
  apply le_bind; [apply le_refl|intro b]. apply le_bind; [|intros _; apply le_refl].
  destruct b; [|apply le_refl]. destruct (dget d (u "nonce")) as [n|]; [|apply le_refl].
  destruct (st_exp (u "nonce") eq_refl) as [e|e]; rewrite e; [apply le_refl|]. intros [] _. reflexivity.
Qed.
Lemma st_request : forall C d, leS (oidc_authz_request_verify E K1 C d) (oidc_authz_request_verify E K2 C d).
Proof.
  intros C d. unfold oidc_authz_request_verify. apply leS_checked; [apply le_refl|]. intro d0. cbv zeta.
  assert (A : authz_args K1 (clear_verified d0) = authz_args K2 (clear_verified d0)).
  { unfold authz_args. rewrite st_request_args. unfold khas, dhas. change (dget (kw K1) (u "opponent_id")) with (kget K1 (u "opponent_id")).
    change (dget (kw K2) (u "opponent_id")) with (kget K2 (u "opponent_id")). rewrite (st_same (u "opponent_id")) by reflexivity. reflexivity. }
  rewrite A. destruct (authz_args K2 (clear_verified d0)) as [args|e]; [|apply leS_refl].
  assert (R : request_step E K1 C args (clear_verified d0) = request_step E K2 C args (clear_verified d0)) by (unfold request_step; rewrite st_jar; reflexivity).
  rewrite R. destruct (request_step E K2 C args (clear_verified d0)) as [d2 [[]|e]]; [|apply leS_refl]. cbn [andthen].
  assert (H : hint_step E K1 C args d2 = hint_step E K2 C args d2) by (unfold hint_step; rewrite st_jar; reflexivity).
  rewrite H. destruct (hint_step E K2 C args d2) as [d3 [[]|e]]; [|apply leS_refl]. cbn [andthen].
  intros d' X. injection X as <- X. rewrite (st_rules d3 true X). reflexivity.
Qed.
Lemma st_jar_merge : forall C t d r, jar_merge E K1 C t d r = jar_merge E K2 C t d r.
Proof. intros C t d r. unfold jar_merge. rewrite st_request_args, st_jar. reflexivity. Qed.
Lemma st_provider : forall C d, le (provider_verify E K1 C d) (provider_verify E K2 C d).
Proof.
  intros C d. unfold provider_verify. apply le_bind; [apply le_refl|intros _]. apply le_bind; [apply le_refl|intros _].
  apply le_bind; [apply le_refl|intro iss]. apply le_bind; [apply le_refl|intro parts]. apply le_bind; [|intros _; apply le_refl].
  unfold khas, dhas. change (dget (kw K1) (u "allow_http")) with (kget K1 (u "allow_http")).
  change (dget (kw K2) (u "allow_http")) with (kget K2 (u "allow_http")).
  destruct (st_ind (u "allow_http") eq_refl) as [e|e]; rewrite e; [apply le_refl|].
  destruct (kget K1 (u "allow_http")); [|apply le_refl]. intros [] _. reflexivity.
Qed.
Lemma st_jwt : forall C d, le (jwt_verify E K1 C d) (jwt_verify E K2 C d).
Proof.
  intros C d. unfold jwt_verify. rewrite (st_karg (u "skew")) by reflexivity. apply le_bind; [apply le_refl|intros _].
  apply le_bind; [apply le_refl|intros _]. apply le_bind; [apply le_refl|intros _]. apply le_bind; [apply le_refl|intros _].
  apply le_bind_unit; [apply le_expected; reflexivity|]. apply le_bind_unit; [apply le_expected'; reflexivity|]. apply le_refl.
Qed.
Lemma st_logout : forall C hdr d, le (logout_token_verify E K1 C hdr d) (logout_token_verify E K2 C hdr d).
Proof.
  intros C hdr d. unfold logout_token_verify. rewrite (st_karg (u "skew")) by reflexivity. do 5 (apply le_bind; [apply le_refl|intros ?]).
  apply le_bind_unit; [apply le_expected'; reflexivity|]. apply le_bind_unit; [apply le_expected'; reflexivity|].
  apply le_bind; [apply le_refl|intros _].
  destruct (st_exp (u "allowed_sign_alg") eq_refl) as [e|e]; rewrite e; [apply le_refl|].
  intros y. destruct (kget K2 (u "allowed_sign_alg")) as [a|]; [|tauto]. destruct (truthy a); [|tauto].
  destruct hdr as [h|]; [|discriminate]. destruct (dget h (u "alg")) as [g|]; [|discriminate]. destruct (py_ne g a); [discriminate|tauto].
Qed.
Lemma st_end_session : forall C d, leS (end_session_verify E K1 C d) (end_session_verify E K2 C d).
Proof.
  intros C d. unfold end_session_verify. apply leS_checked; [apply le_refl|]. intro d0. cbv zeta.
  destruct (dget (clear_verified d0) (u "id_token_hint")) as [h|]; [|apply leS_refl].
  destruct (py_str_e E h) as [t|e]; [cbn [bind]|apply leS_refl].
  pose proof (st_from_jwt 0 (cdef C_oidc_IdToken) t) as L.
  destruct (from_jwt E 0 (cdef C_oidc_IdToken) t (kw_jar K2) (verify_arg K2) (id_token_args K2)) as [[idt hd]|e]; [|intros d' X; discriminate].
  rewrite (L _ eq_refl). pose proof (st_verify_id_token 1 C false (u "id_token_hint") (clear_verified d0)) as V.
  destruct (verify_id_token E 1 K2 C false (u "id_token_hint") (clear_verified d0)) as [d2 [[]|e]]; cbn [andthen]; try (intros d' X; discriminate).
  rewrite (V d2 eq_refl). apply leS_refl.
Qed.
Lemma st_backchannel : forall C d, leS (backchannel_verify E K1 C d) (backchannel_verify E K2 C d).
Proof.
  intros C d. unfold backchannel_verify. apply leS_checked; [apply le_refl|]. intro d0.
  destruct (getitem d0 (u "logout_token")) as [v|e]; [|apply leS_refl].
  destruct (py_str_e E v) as [t|e]; [cbn [bind]|apply leS_refl].
  pose proof (st_from_jwt 0 (cdef C_session_LogoutToken) t) as L.
  destruct (from_jwt E 0 (cdef C_session_LogoutToken) t (kw_jar K2) (verify_arg K2) (id_token_args K2)) as [[lt hd]|e]; [|intros d' X; discriminate].
  rewrite (L _ eq_refl). pose proof (st_logout (cdef C_session_LogoutToken) hd lt) as V.
  destruct (logout_token_verify E K2 (cdef C_session_LogoutToken) hd lt) as [b|e]; [|intros d' X; discriminate].
  rewrite (V b eq_refl). apply leS_refl.
Qed.
Lemma st_authz : forall C d, leS (oidc_authz_response_verify E K1 C d) (oidc_authz_response_verify E K2 C d).
Proof.
  intros C d. unfold oidc_authz_response_verify. apply leS_checked; [apply st_authz_response|]. intro d0. cbv zeta.
  destruct (dget (clear_verified d0) (u "aud")) as [aud|]; [|apply st_with_id_token].
  destruct (st_exp (u "client_id") eq_refl) as [e|e]; rewrite e.
  - destruct (kget K2 (u "client_id")) as [c|]; [|apply st_with_id_token]. destruct (not_in c aud) as [[]|x]; try apply leS_refl. apply st_with_id_token.
  - destruct (kget K2 (u "client_id")) as [c|]; [|apply st_with_id_token]. destruct (not_in c aud) as [[]|x]; try (intros d' X; discriminate). apply st_with_id_token.
Qed.
Lemma st_verify : forall hdr c d, leS (verify E K1 hdr c d) (verify E K2 hdr c d).
Proof.
  intros hdr c d. unfold verify. cbv zeta. destruct (vkind_of c); try apply leS_refl.
  - apply leS_pure, st_authz_response.
  - unfold jar_verify. destruct (dget d (u "request")); [rewrite st_jar_merge|]; apply leS_refl.
  - unfold par_verify. destruct (dget d (u "request")); [rewrite st_jar_merge|]; apply leS_refl.
  - unfold oidc_token_response_verify. apply leS_checked; [apply le_refl|]. intro. apply st_with_id_token.
  - apply st_authz.
  - apply st_request.
  - apply leS_pure, st_idtoken.
  - unfold mwit_verify. apply leS_checked; [apply le_refl|]. intro. apply st_with_id_token.
  - apply leS_pure, st_provider.
  - apply leS_pure, st_jwt.
  - apply st_end_session.
  - apply leS_pure, st_logout.
  - apply st_backchannel.
Qed.
End Strict.

Lemma c130 : forall E K1 K2 hdr c d d', keys_blind E -> stricter K2 K1 -> verify E K2 hdr c d = (d', Ok true) -> verify E K1 hdr c d = (d', Ok true).
Proof.
  intros E K1 K2 hdr c d d' B HS. apply st_verify; [exact HS|]. intros i b tok. apply B. intros k Hn.
  destruct (umem k (expectations ++ indulgences)) eqn:M; [|exact (st_arg K1 K2 HS k M)].
  unfold id_token_args. rewrite !pick_dget. apply umem_In in M. cbn [In app expectations indulgences] in M.
  repeat (destruct M as [<-|M]; [first [reflexivity | exfalso; apply Hn; cbn [In]; tauto]|]). contradiction.
Qed.
Lemma c130_plain : forall E K1 K2 hdr c d d', stricter K2 K1 ->
  (forall k, In k [u "client_id"; u "allowed_sign_alg"; u "allow_sign_alg_none"] -> kget K1 k = kget K2 k) ->
  verify E K2 hdr c d = (d', Ok true) -> verify E K1 hdr c d = (d', Ok true).
Proof.
  intros E K1 K2 hdr c d d' HS H. apply st_verify; [exact HS|]. intros i b tok. f_equal. unfold id_token_args, pick. f_equal.
  apply map_ext_in. intros k Hk. replace (kget K2 k) with (kget K1 k); [reflexivity|].
  destruct (umem k (expectations ++ indulgences)) eqn:M; [|apply st_same; [exact HS|exact M]].
  apply umem_In in M. cbn [In app expectations indulgences] in M. cbn [In] in Hk.
  repeat (destruct M as [<-|M]; [first [apply H; cbn [In]; tauto
    | exfalso; repeat (destruct Hk as [Hk|Hk]; [discriminate Hk|]); exact Hk]|]). contradiction.
Qed.

(** ** C131: other arguments *)
Definition agree (l : list ustr) (K1 K2 : kwargs) : Prop := forall k, In k l -> kget K1 k = kget K2 k.
Lemma agree_get : forall l K1 K2 k, agree l K1 K2 -> umem k l = true -> kget K1 k = kget K2 k.
Proof. intros l K1 K2 k A H. apply A, umem_In, H. Qed.
Lemma agree_pick : forall l names K1 K2, agree l K1 K2 -> forallb (fun k => umem k l) names = true -> pick names K1 = pick names K2.
Proof.
  intros l names K1 K2 A H. unfold pick. f_equal. apply map_ext_in. intros k Hk. rewrite forallb_forall in H. rewrite (agree_get l K1 K2 k A (H k Hk)). reflexivity.
Qed.
Ltac ag A k := rewrite (agree_get _ _ _ (u k) A eq_refl).
Section Same.
Variables (E : env) (K1 K2 : kwargs).
Lemma sm_idtoken : forall l C d, agree l K1 K2 -> forallb (fun k => umem k l) [u "iss"; u "client_id"; u "skew"; u "nonce_storage_time"; u "nonce"] = true ->
  idtoken_verify E K1 C d = idtoken_verify E K2 C d.
Proof.
  intros l C d A H. cbn [forallb] in H. repeat (apply andb_true_iff in H; destruct H as [? H]).
  assert (R : forall k, umem k l = true -> kget K1 k = kget K2 k) by (intros k Hk; exact (agree_get l K1 K2 k A Hk)).
  unfold idtoken_verify, idtoken_aud, idtoken_times, karg. rewrite !R by assumption. reflexivity.
Qed.
Lemma sm_with : forall l, agree l K1 K2 -> kw_jar K1 = kw_jar K2 -> forallb (fun k => umem k l) (u "iss" :: u "nonce" :: token_args) = true ->
  (forall i h claim msg, check_id_token E i K1 h claim msg = check_id_token E i K2 h claim msg) /\
  id_token_args K1 = id_token_args K2 /\ verify_arg K1 = verify_arg K2.
Proof.
  intros l A J H. assert (R : forall k, umem k (u "iss" :: u "nonce" :: token_args) = true -> kget K1 k = kget K2 k).
  { intros k Hk. apply (agree_get l K1 K2 k A). rewrite forallb_forall in H. apply H, umem_In, Hk. }
  assert (P : id_token_args K1 = id_token_args K2) by (apply (agree_pick (u "iss" :: u "nonce" :: token_args)); [intros k Hk; apply R, umem_In, Hk|reflexivity]).
  assert (V : verify_arg K1 = verify_arg K2) by (unfold verify_arg; rewrite R by reflexivity; reflexivity).
  split; [|split; [exact P|exact V]].
  intros i h claim msg. unfold check_id_token, issuer_check. rewrite J, P, V.
  assert (X : forall tok, alg_check K1 tok = alg_check K2 tok) by (intro tok; unfold alg_check, karg; rewrite !R by reflexivity; reflexivity).
  assert (Y : forall C d, idtoken_verify E K1 C d = idtoken_verify E K2 C d).
  { intros C d. apply (sm_idtoken (u "iss" :: u "nonce" :: token_args)); [intros k Hk; apply R, umem_In, Hk|reflexivity]. }
  destruct (getitem msg claim) as [v|]; [cbn [bind]|reflexivity]. destruct (e_jws E v) as [[tok|]|]; cbn [bind]; try reflexivity.
  rewrite X. destruct (alg_check K2 tok) as [s|]; [cbn [bind]|reflexivity]. destruct (t_body tok) as [body|]; [cbn [bind]|reflexivity].
  destruct (if s && kw_jar K2 then _ else _) as [[]|]; [cbn [bind]|reflexivity]. destruct (py_str_e E v) as [t|]; [cbn [bind]|reflexivity].
  destruct (from_jwt E i _ t _ _ _) as [[idt hd]|]; [cbn [bind]|reflexivity]. rewrite Y. reflexivity.
Qed.
Lemma sm_verify_id_token : forall l i C h claim msg, agree l K1 K2 -> kw_jar K1 = kw_jar K2 -> forallb (fun k => umem k l) (u "iss" :: u "nonce" :: token_args) = true ->
  verify_id_token E i K1 C h claim msg = verify_id_token E i K2 C h claim msg.
Proof. intros l i C h claim msg A J H. unfold verify_id_token. rewrite (proj1 (sm_with l A J H)). reflexivity. Qed.
Lemma sm_wit : forall l C h d, agree l K1 K2 -> kw_jar K1 = kw_jar K2 -> forallb (fun k => umem k l) (u "iss" :: u "nonce" :: token_args) = true ->
  with_id_token E K1 C h d = with_id_token E K2 C h d.
Proof. intros l C h d A J H. unfold with_id_token. rewrite (sm_verify_id_token l) by assumption. reflexivity. Qed.
End Same.

(** the arguments by kind of verify() *)
Definition kind_uses (k : vkind) : list ustr :=
  match k with
  | KAuthzResponse => [u "client_id"; u "iss"]
  | KJar | KPar => object_args
  | KTokenResponse | KOidcAuthzResponse | KWithIdToken | KEndSession => u "iss" :: u "nonce" :: token_args
  | KOidcAuthzRequest => u "nonce" :: object_args
  | KIdToken => [u "iss"; u "client_id"; u "skew"; u "nonce_storage_time"; u "nonce"]
  | KProvider => [u "allow_http"]
  | KJwt => [u "skew"; u "aud"; u "iss"]
  | KLogoutToken => [u "aud"; u "iss"; u "skew"; u "allowed_sign_alg"]
  | KBackChannel => u "iss" :: u "aud" :: token_args
  | _ => []
  end.
Definition kind_jar (k : vkind) : bool :=
  match k with KJar | KPar | KTokenResponse | KOidcAuthzResponse | KWithIdToken | KEndSession | KOidcAuthzRequest | KBackChannel => true | _ => false end.
Lemma kind_used : forall c k, In k (kind_uses (vkind_of c)) -> used c k.
Proof.
  intros c k H.
  assert (X : forallb (fun c => forallb (fun k => existsb (fun bl => subclass c (fst bl) && umem k (snd bl)) uses) (kind_uses (vkind_of c))) all_cls = true)
    by (vm_compute; reflexivity).
  rewrite forallb_forall in X. specialize (X c (in_all_cls c)). rewrite forallb_forall in X. specialize (X k H).
  apply existsb_exists in X. destruct X as [[b l] [I X]]. apply andb_true_iff in X. cbn [fst snd] in X. exists b, l.
  split; [exact I|]. split; [tauto|]. apply umem_In. tauto.
Qed.
Lemma kind_uses_jar : forall c, kind_jar (vkind_of c) = true -> uses_jar c = true.
Proof.
  intros c H. assert (X : forallb (fun c => implb (kind_jar (vkind_of c)) (uses_jar c)) all_cls = true) by (vm_compute; reflexivity).
  rewrite forallb_forall in X. specialize (X c (in_all_cls c)). rewrite H in X. exact X.
Qed.

Lemma c131 : forall E K1 K2 hdr c d, (forall k, used c k -> kget K1 k = kget K2 k) -> (uses_jar c = true -> kw_jar K1 = kw_jar K2) ->
  verify E K1 hdr c d = verify E K2 hdr c d.
Proof.
  intros E K1 K2 hdr c d H HJ.
  assert (A : agree (kind_uses (vkind_of c)) K1 K2) by (intros k Hk; apply H, kind_used, Hk).
  assert (J : kind_jar (vkind_of c) = true -> kw_jar K1 = kw_jar K2) by (intro X; apply HJ, kind_uses_jar, X).
  clear H HJ. unfold verify. cbv zeta. destruct (vkind_of c) eqn:V; try reflexivity; cbn [kind_uses] in A; cbn [kind_jar] in J; try specialize (J eq_refl).
  - unfold pure, authz_response_verify. ag A "client_id". ag A "iss". reflexivity.
  - unfold jar_verify, jar_merge. rewrite J. unfold request_args. rewrite (agree_pick _ _ _ _ A) by reflexivity. reflexivity.
  - unfold par_verify, jar_merge. rewrite J. unfold request_args. rewrite (agree_pick _ _ _ _ A) by reflexivity. reflexivity.
  - unfold oidc_token_response_verify, checked. rewrite (sm_wit E K1 K2 _ _ _ _ A J) by reflexivity. reflexivity.
  - unfold oidc_authz_response_verify, checked, authz_response_verify. ag A "client_id". ag A "iss".
    rewrite (sm_wit E K1 K2 _ _ _ _ A J) by reflexivity. reflexivity.
  - unfold oidc_authz_request_verify, checked. destruct (verify_base (cdef c) d); [|reflexivity].
    assert (R : request_args K1 = request_args K2) by (apply (agree_pick _ _ _ _ A); reflexivity).
    unfold authz_args, khas, dhas. change (dget (kw K1) (u "opponent_id")) with (kget K1 (u "opponent_id")).
    change (dget (kw K2) (u "opponent_id")) with (kget K2 (u "opponent_id")). ag A "opponent_id". rewrite R. unfold request_step, hint_step, request_rules. rewrite J.
    ag A "nonce". reflexivity.
  - unfold pure. rewrite (sm_idtoken E K1 K2 _ _ _ A) by reflexivity. reflexivity.
  - unfold mwit_verify, checked. rewrite (sm_wit E K1 K2 _ _ _ _ A J) by reflexivity. reflexivity.
  - unfold pure, provider_verify, khas, dhas. change (dget (kw K1) (u "allow_http")) with (kget K1 (u "allow_http")).
    change (dget (kw K2) (u "allow_http")) with (kget K2 (u "allow_http")). ag A "allow_http". reflexivity.
  - unfold pure, jwt_verify, karg. ag A "skew". ag A "aud". ag A "iss". reflexivity.
  - unfold end_session_verify, checked. destruct (sm_with E K1 K2 _ A J eq_refl) as [_ [P V1]]. rewrite J, P, V1.
    rewrite (sm_verify_id_token E K1 K2 _ _ _ _ _ _ A J) by reflexivity. reflexivity.
  - unfold pure, logout_token_verify, karg. ag A "aud". ag A "iss". ag A "skew". ag A "allowed_sign_alg". reflexivity.
  - unfold backchannel_verify, checked, logout_token_verify, verify_arg, karg. rewrite J. unfold id_token_args. rewrite (agree_pick _ _ _ _ A) by reflexivity.
    ag A "verify". ag A "aud". ag A "iss". ag A "skew". ag A "allowed_sign_alg". reflexivity.
Qed.
