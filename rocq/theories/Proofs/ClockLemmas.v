(** verify() at different times and with different skews. *)
From Coq Require Import List NArith ZArith QArith Qround Bool String Lia.
From Verif Require Import Base.Ustr Base.UstrLemmas Model.Cls Model.Value Model.Pspec Model.Tables Model.Message Model.Env Model.Verify
  Spec.MessageSpec Spec.VerifySpec Spec.ArgumentSpec Spec.ClockSpec Proofs.ValueLemmas Proofs.MessageLemmas Proofs.TypeLemmas Proofs.VerifyLemmas Proofs.TokenLemmas Proofs.IdTokenLemmas
  Proofs.ResponseLemmas Proofs.OtherVerify Proofs.ClassVerify Proofs.ArgumentLemmas.
Import ListNotations.
Open Scope list_scope.
Open Scope N_scope.

Section Two.
Variables (E : env) (t1 t2 : Z) (K1 K2 : kwargs).
Hypothesis HJ : kw_jar K1 = kw_jar K2.
Hypothesis HG : same_but_skew K1 K2.
Hypothesis HK : forall i b tok, e_kj_keys E i b tok (id_token_args K1) = e_kj_keys E i b tok (id_token_args K2).
Let E1 := clock E t1.
Let E2 := clock E t2.

Lemma tw_get : forall k, ueqb k (u "skew") = false -> kget K2 k = kget K1 k.
Proof. intros k H. apply HG. intros ->. discriminate. Qed.
Lemma tw_karg : forall k v, ueqb k (u "skew") = false -> karg K2 k v = karg K1 k v.
Proof. intros k v H. unfold karg. rewrite (tw_get k H). reflexivity. Qed.
Lemma tw_arg : forall k, ueqb k (u "skew") = false -> dget (id_token_args K2) k = dget (id_token_args K1) k.
Proof. intros k H. unfold id_token_args. rewrite !pick_dget. rewrite (tw_get k H). reflexivity. Qed.
Lemma tw_check : forall i t tok, jwt_check E1 i t tok (verify_arg K1) (id_token_args K1) = jwt_check E2 i t tok (verify_arg K2) (id_token_args K2).
Proof.
  intros i t tok. unfold jwt_check, verify_arg, jwt_sigalg. rewrite (tw_get (u "verify")) by reflexivity. rewrite (tw_arg (u "sigalg")) by reflexivity.
  change (e_kj_keys E1) with (e_kj_keys E). change (e_kj_keys E2) with (e_kj_keys E). rewrite !HK. reflexivity.
Qed.
Lemma tw_from_jwt : forall i C t, from_jwt E1 i C t (kw_jar K1) (verify_arg K1) (id_token_args K1) = from_jwt E2 i C t (kw_jar K2) (verify_arg K2) (id_token_args K2).
Proof.
  intros i C t. unfold from_jwt. rewrite HJ. destruct (negb (kw_jar K2)); [reflexivity|].
  unfold jwt_decrypt. rewrite (tw_arg (u "encalg")) by reflexivity. rewrite (tw_arg (u "encenc")) by reflexivity.
  change (e_jwe E1) with (e_jwe E). change (e_jwe E2) with (e_jwe E). change (e_jws E1) with (e_jws E). change (e_jws E2) with (e_jws E).
  match goal with |- bind ?r _ = bind ?r _ => destruct r as [t0|]; [cbn [bind]|reflexivity] end.
  destruct (e_jws E (VStr t0)) as [[tok|]|]; cbn [bind]; try reflexivity. destruct (t_body tok); cbn [bind]; [|reflexivity].
  rewrite tw_check. reflexivity.
Qed.
Lemma tw_alg : forall tok, alg_check K1 tok = alg_check K2 tok.
Proof.
  intro tok. unfold alg_check. rewrite !tw_karg by reflexivity. rewrite tw_get by reflexivity. reflexivity.
Qed.
Lemma tw_request : request_args K1 = request_args K2.
Proof. unfold request_args, pick. f_equal. apply map_ext_in. intros k Hk. rewrite HG; [reflexivity|]. intros ->. cbn [In] in Hk. repeat (destruct Hk as [Hk|Hk]; [discriminate Hk|]). exact Hk. Qed.

(** what the times amount to *)
Hypothesis HI : forall C d, le (idtoken_verify E1 K1 C d) (idtoken_verify E2 K2 C d).
Lemma tw_check_id_token : forall i h claim msg, le (check_id_token E1 i K1 h claim msg) (check_id_token E2 i K2 h claim msg).
Proof.
  intros i h claim msg. unfold check_id_token. apply le_bind; [apply le_refl|intro v]. apply le_bind; [apply le_refl|].
  intros [tok|]; [|apply le_refl]. rewrite tw_alg. apply le_bind; [apply le_refl|intro s]. apply le_bind; [apply le_refl|intro body].
  apply le_bind_unit; [unfold issuer_check; rewrite HJ; apply le_refl|]. apply le_bind; [apply le_refl|intro t].
  rewrite tw_from_jwt. apply le_bind; [apply le_refl|intros [idt hdr]]. apply le_bind; [apply HI|intros ok]. apply le_refl.
Qed.
Lemma tw_verify_id_token : forall i C h claim msg, leS (verify_id_token E1 i K1 C h claim msg) (verify_id_token E2 i K2 C h claim msg).
Proof.
  intros i C h claim msg d'. unfold verify_id_token. pose proof (tw_check_id_token i h claim msg) as L.
  destruct (check_id_token E2 i K2 h claim msg) as [x|e]; [|discriminate]. rewrite (L x eq_refl). destruct x; [tauto|discriminate].
Qed.
Lemma tw_with_id_token : forall C h d, leS (with_id_token E1 K1 C h d) (with_id_token E2 K2 C h d).
Proof. intros C h d. unfold with_id_token. destruct (dhas d (u "id_token")); [apply tw_verify_id_token|apply leS_refl]. Qed.
Lemma tw_end_session : forall C d, leS (end_session_verify E1 K1 C d) (end_session_verify E2 K2 C d).
Proof.
  intros C d. unfold end_session_verify. apply leS_checked; [apply le_refl|]. intro d0. cbv zeta.
  destruct (dget (clear_verified d0) (u "id_token_hint")) as [h|]; [|apply leS_refl].
  change (py_str_e E1 h) with (py_str_e E h). change (py_str_e E2 h) with (py_str_e E h).
  destruct (py_str_e E h) as [t|e]; [cbn [bind]|apply leS_refl]. rewrite tw_from_jwt.
  destruct (from_jwt E2 0 (cdef C_oidc_IdToken) t (kw_jar K2) (verify_arg K2) (id_token_args K2)) as [[idt hd]|e]; [|apply leS_refl].
  pose proof (tw_verify_id_token 1 C false (u "id_token_hint") (clear_verified d0)) as V.
  destruct (verify_id_token E2 1 K2 C false (u "id_token_hint") (clear_verified d0)) as [d2 [[]|e]]; cbn [andthen]; try (intros d' X; discriminate).
  rewrite (V d2 eq_refl). apply leS_refl.
Qed.
Lemma tw_authz_response : forall C d, authz_response_verify K1 C d = authz_response_verify K2 C d.
Proof. intros C d. unfold authz_response_verify. rewrite !tw_get by reflexivity. reflexivity. Qed.
Lemma tw_authz : forall C d, leS (oidc_authz_response_verify E1 K1 C d) (oidc_authz_response_verify E2 K2 C d).
Proof.
  intros C d. unfold oidc_authz_response_verify. rewrite tw_authz_response. apply leS_checked; [apply le_refl|]. intro d0. cbv zeta.
  rewrite tw_get by reflexivity.
  destruct (dget (clear_verified d0) (u "aud")) as [aud|]; [|apply tw_with_id_token].
  destruct (kget K1 (u "client_id")) as [c|]; [|apply tw_with_id_token]. destruct (not_in c aud) as [[]|x]; try apply leS_refl. apply tw_with_id_token.
Qed.
Lemma tw_id_kinds : forall hdr c d, In (vkind_of c) [KIdToken; KTokenResponse; KOidcAuthzResponse; KWithIdToken; KEndSession] ->
  leS (verify E1 K1 hdr c d) (verify E2 K2 hdr c d).
Proof.
  intros hdr c d H. cbn [In] in H. unfold verify. cbv zeta. destruct H as [<-|[<-|[<-|[<-|[<-|[]]]]]].
  - apply leS_pure, HI.
  - unfold oidc_token_response_verify. apply leS_checked; [apply le_refl|]. intro. apply tw_with_id_token.
  - apply tw_authz.
  - unfold mwit_verify. apply leS_checked; [apply le_refl|]. intro. apply tw_with_id_token.
  - apply tw_end_session.
Qed.
End Two.

Section Logout.
Variables (E : env) (t1 t2 : Z) (K1 K2 : kwargs).
Hypothesis HJ : kw_jar K1 = kw_jar K2.
Hypothesis HG : same_but_skew K1 K2.
Hypothesis HK : forall i b tok, e_kj_keys E i b tok (id_token_args K1) = e_kj_keys E i b tok (id_token_args K2).
Hypothesis HL : forall C hdr d, le (logout_token_verify (clock E t1) K1 C hdr d) (logout_token_verify (clock E t2) K2 C hdr d).
Lemma tw_backchannel : forall C d, leS (backchannel_verify (clock E t1) K1 C d) (backchannel_verify (clock E t2) K2 C d).
Proof.
  intros C d. unfold backchannel_verify. apply leS_checked; [apply le_refl|]. intro d0.
  destruct (getitem d0 (u "logout_token")) as [v|e]; [|apply leS_refl].
  change (py_str_e (clock E t1) v) with (py_str_e E v). change (py_str_e (clock E t2) v) with (py_str_e E v).
  destruct (py_str_e E v) as [t|e]; [cbn [bind]|apply leS_refl].
  rewrite (tw_from_jwt E t1 t2 K1 K2 HJ HG HK).
  destruct (from_jwt (clock E t2) 0 (cdef C_session_LogoutToken) t (kw_jar K2) (verify_arg K2) (id_token_args K2)) as [[lt hd]|e]; [|apply leS_refl].
  pose proof (HL (cdef C_session_LogoutToken) hd lt) as V.
  destruct (logout_token_verify (clock E t2) K2 (cdef C_session_LogoutToken) hd lt) as [b|e]; [|intros d' X; discriminate].
  rewrite (V b eq_refl). apply leS_refl.
Qed.
Lemma tw_logout_kinds : forall hdr c d, In (vkind_of c) [KLogoutToken; KBackChannel] ->
  leS (verify (clock E t1) K1 hdr c d) (verify (clock E t2) K2 hdr c d).
Proof.
  intros hdr c d H. cbn [In] in H. unfold verify. cbv zeta. destruct H as [<-|[<-|[]]]; [apply leS_pure, HL|apply tw_backchannel].
Qed.
End Logout.

Lemma at_most_le : forall v a b, (a <= b)%Z -> at_most v a -> at_most v b.
Proof. intros v a b H (q & Hq & Hl). exists q. split; [exact Hq|]. apply Qle_trans with (inject_Z a); [exact Hl|]. rewrite <- Zle_Qle. exact H. Qed.
Lemma at_least_le : forall v a b, (a <= b)%Z -> at_least v b -> at_least v a.
Proof. intros v a b H (q & Hq & Hl). exists q. split; [exact Hq|]. apply Qle_trans with (inject_Z b); [|exact Hl]. rewrite <- Zle_Qle. exact H. Qed.
Lemma le_logout_time : forall E t1 t2 K C hdr d s, arg_int K (u "skew") 0 s -> (t2 <= t1)%Z -> le (logout_token_verify (clock E t1) K C hdr d) (logout_token_verify (clock E t2) K C hdr d).
Proof.
  intros E t1 t2 K C hdr d s Hs H x X. apply logout_verify_ok in X. apply logout_verify_ok. destruct X as [[T R] Hx]. split; [|exact Hx]. split; [exact T|].
  destruct R. constructor; try assumption. intros t Ht. generalize (l_iat t Ht). rewrite !(past_whole _ _ _ _ Hs). apply at_most_le. cbn [e_now clock]. lia.
Qed.
Lemma le_id_time : forall E t1 t2 K C d s, arg_int K (u "skew") 0 s -> (t1 <= t2)%Z -> le (idtoken_verify (clock E t1) K C d) (idtoken_verify (clock E t2) K C d).
Proof. intros E t1 t2 K C d s Hs H x X. pose proof (proj1 (idtoken_verify_ok _ _ _ _ _) X) as [_ ->]. revert X. apply (c35_time _ _ _ _ _ s Hs). exact H. Qed.
Lemma le_id_skew : forall E K K' C d s s', same_but_skew K K' -> arg_int K (u "skew") 0 s -> arg_int K' (u "skew") 0 s' -> (s <= s')%Z ->
  le (idtoken_verify E K' C d) (idtoken_verify E K C d).
Proof.
  intros E K K' C d s s' Hk Hs Hs' Hl x X. pose proof (proj1 (idtoken_verify_ok _ _ _ _ _) X) as [_ ->]. exact (c35_skew E K K' C d s s' Hk Hs Hs' Hl X).
Qed.
Lemma arg_int_det : forall K k d a b, arg_int K k d a -> arg_int K k d b -> a = b.
Proof. intros K k d a b [[H1 ->]|(v & H1 & H2)] [[H3 ->]|(w & H3 & H4)]; congruence. Qed.
Lemma le_logout_skew : forall E K K' C hdr d s s', same_but_skew K K' -> arg_int K (u "skew") 0 s -> arg_int K' (u "skew") 0 s' -> (s <= s')%Z ->
  le (logout_token_verify E K' C hdr d) (logout_token_verify E K C hdr d).
Proof.
  intros E K K' C hdr d s s' Hk Hs Hs' Hl x X. apply logout_verify_ok in X. apply logout_verify_ok. destruct X as [[T R] Hx]. split; [|exact Hx]. split; [exact T|].
  assert (G : forall k, ueqb k (u "skew") = false -> kget K' k = kget K k) by (intros k H; apply Hk; intros ->; discriminate).
  destruct R. constructor; try assumption; rewrite ?(G (u "aud") eq_refl), ?(G (u "iss") eq_refl), ?(G (u "allowed_sign_alg") eq_refl); try assumption.
  intros t Ht. generalize (l_iat t Ht). rewrite (past_whole _ _ _ _ Hs), (past_whole _ _ _ _ Hs'). apply at_most_le. lia.
Qed.

Lemma clockless : forall E t1 t2 K hdr c d,
  ~ In (vkind_of c) [KIdToken; KTokenResponse; KOidcAuthzResponse; KWithIdToken; KEndSession; KLogoutToken; KBackChannel; KJwt] ->
  verify (clock E t1) K hdr c d = verify (clock E t2) K hdr c d.
Proof.
  intros E t1 t2 K hdr c d H. unfold verify. cbv zeta.
  destruct (vkind_of c); try (exfalso; apply H; cbn [In]; tauto); reflexivity.
Qed.

(** ** the statements *)
Definition id_kinds := [KIdToken; KTokenResponse; KOidcAuthzResponse; KWithIdToken; KEndSession].
Definition logout_kinds := [KLogoutToken; KBackChannel].
Definition clock_class (c : cls) : Prop :=
  (has_id_token c = true /\ has_logout_token c = false /\ is_jwt c = false /\ In (vkind_of c) id_kinds) \/
  (has_id_token c = false /\ has_logout_token c = true /\ is_jwt c = false /\ In (vkind_of c) logout_kinds) \/
  (has_id_token c = false /\ has_logout_token c = false /\ is_jwt c = true) \/
  (has_id_token c = false /\ has_logout_token c = false /\ is_jwt c = false /\ ~ In (vkind_of c) (id_kinds ++ logout_kinds ++ [KJwt])).
Lemma classified : forall c, clock_class c.
Proof.
  intro c. unfold clock_class, id_kinds, logout_kinds.
  destruct c; first [ left; repeat split; cbn; tauto | right; left; repeat split; cbn; tauto | right; right; left; repeat split; reflexivity
    | right; right; right; repeat (split; [reflexivity|]); vm_compute; intuition discriminate ].
Qed.
Lemma class_id : forall c, has_id_token c = true -> In (vkind_of c) id_kinds.
Proof. intros c H. destruct (classified c) as [(X & Y & Z & W)|[(X & Y & Z & W)|[(X & Y & Z)|(X & Y & Z & W)]]]; congruence || exact W. Qed.
Lemma class_logout : forall c, has_logout_token c = true -> In (vkind_of c) logout_kinds.
Proof. intros c H. destruct (classified c) as [(X & Y & Z & W)|[(X & Y & Z & W)|[(X & Y & Z)|(X & Y & Z & W)]]]; congruence || exact W. Qed.
Lemma class_none : forall c, has_id_token c = false -> has_logout_token c = false -> is_jwt c = false -> ~ In (vkind_of c) (id_kinds ++ logout_kinds ++ [KJwt]).
Proof. intros c H1 H2 H3. destruct (classified c) as [(X & Y & Z & W)|[(X & Y & Z & W)|[(X & Y & Z)|(X & Y & Z & W)]]]; congruence || exact W. Qed.
Lemma same_refl : forall K, same_but_skew K K.
Proof. intros K k _. reflexivity. Qed.

Lemma c136_id : forall E K hdr c d d' t1 t2 s, arg_int K (u "skew") 0 s -> has_id_token c = true -> (t1 <= t2)%Z ->
  verify (clock E t2) K hdr c d = (d', Ok true) -> verify (clock E t1) K hdr c d = (d', Ok true).
Proof.
  intros E K hdr c d d' t1 t2 s Hs H L. apply (tw_id_kinds E t1 t2 K K eq_refl (same_refl K)); [reflexivity| |].
  - intros C d0. exact (le_id_time E t1 t2 K C d0 s Hs L).
  - exact (class_id c H).
Qed.
Lemma c136_logout : forall E K hdr c d d' t1 t2 s, arg_int K (u "skew") 0 s -> has_logout_token c = true -> (t1 <= t2)%Z ->
  verify (clock E t1) K hdr c d = (d', Ok true) -> verify (clock E t2) K hdr c d = (d', Ok true).
Proof.
  intros E K hdr c d d' t1 t2 s Hs H L. apply (tw_logout_kinds E t2 t1 K K eq_refl (same_refl K)); [reflexivity| |].
  - intros C h d0. exact (le_logout_time E t2 t1 K C h d0 s Hs L).
  - exact (class_logout c H).
Qed.
Lemma c136_none : forall E K hdr c d t1 t2, has_id_token c = false -> has_logout_token c = false -> is_jwt c = false ->
  verify (clock E t1) K hdr c d = verify (clock E t2) K hdr c d.
Proof.
  intros E K hdr c d t1 t2 H1 H2 H3. apply clockless.
  exact (class_none c H1 H2 H3).
Qed.
Lemma jwt_dict : forall E K hdr c d d' r, is_jwt c = true -> verify E K hdr c d = (d', r) -> d' = d.
Proof. intros E K hdr c d d' r H. unfold verify. rewrite (jwt_kind c H). unfold pure. congruence. Qed.
Lemma c136 : forall E K hdr c d d1 d3 t1 t2 t3 s, arg_int K (u "skew") 0 s -> (t1 <= t2 <= t3)%Z ->
  verify (clock E t1) K hdr c d = (d1, Ok true) -> verify (clock E t3) K hdr c d = (d3, Ok true) ->
  d1 = d3 /\ verify (clock E t2) K hdr c d = (d1, Ok true).
Proof.
  intros E K hdr c d d1 d3 t1 t2 t3 s Hs [L1 L2] H1 H3. destruct (has_id_token c) eqn:HI.
  { pose proof (c136_id E K hdr c d d3 t1 t3 s Hs HI ltac:(lia) H3) as X. assert (d1 = d3) by congruence. subst d3. split; [reflexivity|].
    exact (c136_id E K hdr c d d1 t2 t3 s Hs HI L2 H3). }
  destruct (has_logout_token c) eqn:HL.
  { pose proof (c136_logout E K hdr c d d1 t1 t3 s Hs HL ltac:(lia) H1) as X. assert (d1 = d3) by congruence. subst d3. split; [reflexivity|].
    exact (c136_logout E K hdr c d d1 t1 t2 s Hs HL L1 H1). }
  destruct (is_jwt c) eqn:HJ.
  { pose proof (jwt_dict _ _ _ _ _ _ _ HJ H1). pose proof (jwt_dict _ _ _ _ _ _ _ HJ H3). subst d1 d3. split; [reflexivity|].
    apply c39 in H1; [|exact HJ]. apply c39 in H3; [|exact HJ]. apply c39; [exact HJ|]. destruct H1 as [T1 R1], H3 as [T3 R3].
    split; [exact T1|]. destruct R1, R3. cbn [e_now clock] in *. constructor; try assumption.
    - intros e He. generalize (j_exp0 e He). rewrite !(exp_whole _ _ _ _ Hs). apply at_least_le. lia.
    - intros e He. generalize (j_iat e He). rewrite !(past_whole _ _ _ _ Hs). apply at_most_le. lia.
    - intros e He. generalize (j_nbf e He). rewrite !(nbf_whole _ _ _ _ Hs). apply at_most_le. lia. }
  rewrite (c136_none E K hdr c d t3 t1) in H3 by assumption. split; [congruence|].
  rewrite (c136_none E K hdr c d t2 t1) by assumption. exact H1.
Qed.

(** *** the skew *)
Lemma le_id_shift : forall E t1 t2 K1 K2 C d s1 s2, same_but_skew K1 K2 -> arg_int K1 (u "skew") 0 s1 -> arg_int K2 (u "skew") 0 s2 -> (t1 - s1 <= t2 - s2)%Z ->
  le (idtoken_verify (clock E t1) K1 C d) (idtoken_verify (clock E t2) K2 C d).
Proof.
  intros E t1 t2 K1 K2 C d s1 s2 HG H1 H2 L x X. apply idtoken_verify_ok in X. apply idtoken_verify_ok. destruct X as [[T R] Hx]. split; [|exact Hx]. split; [exact T|].
  assert (G : forall k, ueqb k (u "skew") = false -> kget K2 k = kget K1 k) by (intros k H; apply HG; intros ->; discriminate).
  cbn [e_now clock] in *. destruct R as [A1 A2 A3 A4 [e [He Hl]] [t [Ht Hl']] A7].
  rewrite (G (u "iss") eq_refl) in A1. rewrite (G (u "client_id") eq_refl) in A2, A4. rewrite (G (u "nonce") eq_refl) in A7.
  constructor; try assumption.
  - exists e. split; [exact He|]. revert Hl. rewrite (exp_whole _ _ _ _ H1), (exp_whole _ _ _ _ H2). apply at_least_le. exact L.
  - exists t. split; [exact Ht|]. revert Hl'. rewrite (fresh_whole _ _ _ _ H1), (fresh_whole _ _ _ _ H2). intros (n & y & Hn & Hy & Hl').
    exists n, y. split; [unfold arg in Hn |- *; rewrite (G (u "nonce_storage_time") eq_refl) in Hn; exact Hn|]. split; [exact Hy|].
    apply Qle_trans with (inject_Z (t2 - s2)); [|exact Hl']. rewrite <- Zle_Qle. exact L.
Qed.
Lemma le_logout_shift : forall E t1 t2 K1 K2 C hdr d s1 s2, same_but_skew K1 K2 -> arg_int K1 (u "skew") 0 s1 -> arg_int K2 (u "skew") 0 s2 -> (t2 + s2 <= t1 + s1)%Z ->
  le (logout_token_verify (clock E t1) K1 C hdr d) (logout_token_verify (clock E t2) K2 C hdr d).
Proof.
  intros E t1 t2 K1 K2 C hdr d s1 s2 Hk H1 H2 L x X. apply logout_verify_ok in X. apply logout_verify_ok. destruct X as [[T R] Hx]. split; [|exact Hx]. split; [exact T|].
  assert (G : forall k, ueqb k (u "skew") = false -> kget K2 k = kget K1 k) by (intros k H; apply Hk; intros ->; discriminate).
  destruct R as [A1 A2 A3 A4 A5 A6 A7]. rewrite (G (u "aud") eq_refl) in A4. rewrite (G (u "iss") eq_refl) in A5. rewrite (G (u "allowed_sign_alg") eq_refl) in A7.
  constructor; try assumption. cbn [e_now clock] in *.
  intros t Ht. generalize (A6 t Ht). rewrite (past_whole _ _ _ _ H1), (past_whole _ _ _ _ H2). apply at_most_le. exact L.
Qed.
Lemma skewless_args : forall E K1 K2, keys_skewless E -> same_but_skew K1 K2 ->
  forall i b tok, e_kj_keys E i b tok (id_token_args K1) = e_kj_keys E i b tok (id_token_args K2).
Proof.
  intros E K1 K2 HE HG i b tok. apply HE. intros k Hk. unfold id_token_args. rewrite !pick_dget. rewrite (HG k Hk). reflexivity.
Qed.
Lemma c137_id : forall E t1 t2 K1 K2 hdr c d d' s1 s2, has_id_token c = true -> keys_skewless E -> kw_jar K1 = kw_jar K2 -> same_but_skew K1 K2 ->
  arg_int K1 (u "skew") 0 s1 -> arg_int K2 (u "skew") 0 s2 -> (t1 - s1 <= t2 - s2)%Z ->
  verify (clock E t2) K2 hdr c d = (d', Ok true) -> verify (clock E t1) K1 hdr c d = (d', Ok true).
Proof.
  intros E t1 t2 K1 K2 hdr c d d' s1 s2 H HE HJ HG H1 H2 L. apply (tw_id_kinds E t1 t2 K1 K2 HJ HG (skewless_args E K1 K2 HE HG)).
  - intros C d0. exact (le_id_shift E t1 t2 K1 K2 C d0 s1 s2 HG H1 H2 L).
  - exact (class_id c H).
Qed.
Lemma c137_logout : forall E t1 t2 K1 K2 hdr c d d' s1 s2, has_logout_token c = true -> keys_skewless E -> kw_jar K1 = kw_jar K2 -> same_but_skew K1 K2 ->
  arg_int K1 (u "skew") 0 s1 -> arg_int K2 (u "skew") 0 s2 -> (t2 + s2 <= t1 + s1)%Z ->
  verify (clock E t2) K2 hdr c d = (d', Ok true) -> verify (clock E t1) K1 hdr c d = (d', Ok true).
Proof.
  intros E t1 t2 K1 K2 hdr c d d' s1 s2 H HE HJ HG H1 H2 L. apply (tw_logout_kinds E t1 t2 K1 K2 HJ HG (skewless_args E K1 K2 HE HG)).
  - intros C h d0. exact (le_logout_shift E t1 t2 K1 K2 C h d0 s1 s2 HG H1 H2 L).
  - exact (class_logout c H).
Qed.
Lemma same_sym : forall K K', same_but_skew K K' -> same_but_skew K' K.
Proof. intros K K' H k Hk. symmetry. apply H, Hk. Qed.
Lemma clock_self : forall E, clock E (e_now E) = E.
Proof. intros []. reflexivity. Qed.
Lemma c137_none : forall E K1 K2 hdr c d, has_id_token c = false -> has_logout_token c = false -> is_jwt c = false ->
  kw_jar K1 = kw_jar K2 -> same_but_skew K1 K2 -> verify E K1 hdr c d = verify E K2 hdr c d.
Proof.
  intros E K1 K2 hdr c d H1 H2 H3 HJ HG. apply c131; [|intros _; exact HJ]. intros k Hu. symmetry. apply HG. intros ->.
  destruct Hu as (b & l & Hi & Hs & Hk).
  assert (X : has_id_token c || has_logout_token c || is_jwt c = true).
  { clear - Hi Hs Hk. unfold has_id_token, has_logout_token, is_jwt. cbn [existsb].
    cbn [In uses] in Hi. repeat (destruct Hi as [Hi|Hi]; [injection Hi as <- <-; rewrite ?Hs, ?orb_true_r; first [reflexivity | exfalso; cbn [In object_args token_args] in Hk; repeat (destruct Hk as [Hk|Hk]; [discriminate Hk|]); exact Hk]|]). contradiction. }
  rewrite H1, H2, H3 in X. discriminate.
Qed.
Lemma c137 : forall E K K' hdr c d d' s s', keys_skewless E -> kw_jar K = kw_jar K' -> same_but_skew K K' ->
  arg_int K (u "skew") 0 s -> arg_int K' (u "skew") 0 s' -> (s <= s')%Z -> (is_jwt c = true -> dget d (u "nbf") = None) ->
  verify E K hdr c d = (d', Ok true) -> verify E K' hdr c d = (d', Ok true).
Proof.
  intros E K K' hdr c d d' s s' HE HJ HG H1 H2 L N. destruct (has_id_token c) eqn:HI.
  { rewrite <- (clock_self E). apply (c137_id E (e_now E) (e_now E) K' K hdr c d d' s' s HI HE (eq_sym HJ) (same_sym _ _ HG) H2 H1). lia. }
  destruct (has_logout_token c) eqn:HL.
  { rewrite <- (clock_self E). apply (c137_logout E (e_now E) (e_now E) K' K hdr c d d' s' s HL HE (eq_sym HJ) (same_sym _ _ HG) H2 H1). lia. }
  destruct (is_jwt c) eqn:Hj.
  { intro X. pose proof (jwt_dict _ _ _ _ _ _ _ Hj X). subst d'. revert X. exact (c40_class E K K' hdr c d s s' Hj HG H1 H2 L (N eq_refl)). }
  rewrite (c137_none E K K') by assumption. tauto.
Qed.

(** *** in the long run *)
Lemma rules_expire : forall K d t0 s, arg_int K (u "skew") 0 s -> id_token_rules t0 K d -> exists T, forall t, (T < t)%Z -> ~ id_token_rules t K d.
Proof.
  intros K d t0 s Hs [_ _ _ _ [e [He X]] _ _]. apply (exp_whole _ _ _ _ Hs) in X. destruct X as (q & Hq & Hl). exists (s + Qround.Qceiling q)%Z. intros t Ht R.
  destruct R as [_ _ _ _ [e2 [He2 X]] _ _]. assert (e2 = e) by congruence. subst e2. apply (exp_whole _ _ _ _ Hs) in X. destruct X as (q2 & Hq2 & Hl2).
  assert (q2 = q) by congruence. subst q2.
  assert (X : (inject_Z (t - s) <= inject_Z (Qround.Qceiling q))%Q) by (apply Qle_trans with q; [exact Hl2|apply Qround.Qle_ceiling]).
  rewrite <- Zle_Qle in X. lia.
Qed.
Lemma check_rules : forall E i K h claim msg idt, check_id_token E i K h claim msg = Ok (Some idt) -> id_token_rules (e_now E) K idt.
Proof.
  intros E i K h claim msg idt H. unfold check_id_token in H.
  destruct (getitem msg claim) as [v|]; [cbn [bind] in H|discriminate]. destruct (e_jws E v) as [[tok|]|]; [cbn [bind] in H|discriminate|discriminate].
  destruct (alg_check K tok) as [b|]; [cbn [bind] in H|discriminate]. destruct (t_body tok) as [body|]; [cbn [bind] in H|discriminate].
  destruct (issuer_check E K b body) as [x|]; [cbn [bind] in H|discriminate]. destruct (py_str_e E v) as [t|]; [cbn [bind] in H|discriminate].
  destruct (from_jwt E i (cdef C_oidc_IdToken) t (kw_jar K) (verify_arg K) (id_token_args K)) as [[idt0 hd]|]; [cbn [bind] in H|discriminate].
  destruct (idtoken_verify E K (cdef C_oidc_IdToken) idt0) as [ok|] eqn:V; [cbn [bind] in H|discriminate].
  apply idtoken_verify_ok in V. destruct V as [[_ R] ->].
  destruct (if b && h then hashes_check E msg idt0 hd else Ok tt) as [y|]; [cbn [bind] in H|discriminate]. injection H as <-. exact R.
Qed.
Lemma check_expires : forall E i K h claim msg t0 idt s, arg_int K (u "skew") 0 s -> check_id_token (clock E t0) i K h claim msg = Ok (Some idt) ->
  exists T, forall t x, (T < t)%Z -> check_id_token (clock E t) i K h claim msg <> Ok (Some x).
Proof.
  intros E i K h claim msg t0 idt s Hs H. pose proof (check_rules _ _ _ _ _ _ _ H) as R. destruct (rules_expire _ _ _ _ Hs R) as [T HT].
  exists (Z.max t0 T). intros t x L X. apply (HT t); [lia|].
  assert (M : le (check_id_token (clock E t0) i K h claim msg) (check_id_token (clock E t) i K h claim msg)).
  { apply (tw_check_id_token E t0 t K K eq_refl (same_refl K)); [reflexivity|]. intros C d0. apply (le_id_time _ _ _ _ _ _ s Hs). lia. }
  pose proof (M _ X) as X0. assert (x = idt) by congruence. subst x. exact (check_rules _ _ _ _ _ _ _ X).
Qed.
Lemma wit_expires : forall E K c h d t0 d0 s, arg_int K (u "skew") 0 s -> with_id_token (clock E t0) K (cdef c) h d = (d0, Ok true) -> dget d (u "id_token") <> None ->
  exists T, forall t d', (T < t)%Z -> with_id_token (clock E t) K (cdef c) h d <> (d', Ok true).
Proof.
  intros E K c h d t0 d0 s Hs H N. apply with_id_token_true in H. destruct H as [[H _]|[idt [H _]]]; [contradiction|].
  destruct (check_expires _ _ _ _ _ _ _ _ _ Hs H) as [T HT]. exists T. intros t d' L X. apply with_id_token_true in X.
  destruct X as [[X _]|[x [X _]]]; [contradiction|]. exact (HT t x L X).
Qed.
Lemma cleared_id_token : forall d, dget (clear_verified d) (u "id_token") = dget d (u "id_token").
Proof. intro d. rewrite dget_clear. reflexivity. Qed.
Lemma c138_id : forall E K hdr c d d0 t0 s, arg_int K (u "skew") 0 s -> with_token c d -> verify (clock E t0) K hdr c d = (d0, Ok true) ->
  exists T, forall t d', (T < t)%Z -> verify (clock E t) K hdr c d <> (d', Ok true).
Proof.
  intros E K hdr c d d0 t0 s Hs W H. destruct W as [W|[[W N]|[W N]]].
  - assert (Hk : vkind_of c = KIdToken) by (destruct c; try reflexivity; vm_compute in W; discriminate).
    unfold verify in *. rewrite Hk in *. unfold pure in *. injection H as _ H. apply idtoken_verify_ok in H. destruct H as [[_ R] _].
    destruct (rules_expire _ _ _ _ Hs R) as [T HT]. exists T. intros t d' L X. injection X as _ X. apply idtoken_verify_ok in X.
    exact (HT t L (proj2 (proj1 X))).
  - destruct (kinds c W) as [[Hk _]|[[Hk _]|[Hk _]]]; unfold verify in *; rewrite Hk in *; cbv zeta in *.
    + unfold oidc_token_response_verify in *. apply checked_true in H. destruct H as [a [_ H]].
      destruct (wit_expires _ _ _ _ _ _ _ _ Hs H) as [T HT]; [rewrite ?cleared_id_token; exact N|]. exists T. intros t d' L X.
      apply checked_true in X. destruct X as [a' [_ X]]. exact (HT t d' L X).
    + unfold oidc_authz_response_verify in *. apply checked_true in H. destruct H as [a [_ H]]. cbv zeta in H.
      assert (Y : exists d1, with_id_token (clock E t0) K (cdef c) true (clear_verified d) = (d1, Ok true)).
      { destruct (dget (clear_verified d) (u "aud")); [|eauto]. destruct (kget K (u "client_id")); [|eauto].
        destruct (not_in _ _) as [[]|]; [discriminate|eauto|discriminate]. }
      destruct Y as [d1 Y]. destruct (wit_expires _ _ _ _ _ _ _ _ Hs Y) as [T HT]; [rewrite cleared_id_token; exact N|].
      exists T. intros t d' L X. apply checked_true in X. destruct X as [a' [_ X]]. cbv zeta in X.
      destruct (dget (clear_verified d) (u "aud")); [|exact (HT t d' L X)]. destruct (kget K (u "client_id")); [|exact (HT t d' L X)].
      destruct (not_in _ _) as [[]|]; [discriminate|exact (HT t d' L X)|discriminate].
    + unfold mwit_verify in *. apply checked_true in H. destruct H as [a [_ H]].
      destruct (wit_expires _ _ _ _ _ _ _ _ Hs H) as [T HT]; [rewrite ?cleared_id_token; exact N|]. exists T. intros t d' L X.
      apply checked_true in X. destruct X as [a' [_ X]]. exact (HT t d' L X).
  - assert (Hk : vkind_of c = KEndSession) by (destruct c; try reflexivity; vm_compute in W; discriminate).
    unfold verify in *. rewrite Hk in *. cbv zeta in *. unfold end_session_verify in *. apply checked_true in H. destruct H as [a [_ H]]. cbv zeta in H.
    destruct (dget (clear_verified d) (u "id_token_hint")) as [v|] eqn:Hv; [|rewrite dget_clear in Hv; contradiction (N Hv)].
    assert (Y : exists idt, check_id_token (clock E t0) 1 K false (u "id_token_hint") (clear_verified d) = Ok (Some idt)).
    { destruct (bind _ _) as [[idt hd]|] in H; [|discriminate].
      destruct (verify_id_token (clock E t0) 1 K (cdef c) false (u "id_token_hint") (clear_verified d)) as [d2 [[]|]] eqn:V; try discriminate.
      apply verify_id_token_true in V; [|right; left; reflexivity]. destruct V as [idt' [V _]]. eauto. }
    destruct Y as [idt Y]. destruct (check_expires _ _ _ _ _ _ _ _ _ Hs Y) as [T HT]. exists T. intros t d' L X.
    apply checked_true in X. destruct X as [a' [_ X]]. cbv zeta in X. rewrite Hv in X.
    destruct (bind _ _) as [[idt' hd]|] in X; [|discriminate].
    destruct (verify_id_token (clock E t) 1 K (cdef c) false (u "id_token_hint") (clear_verified d)) as [d2 [[]|]] eqn:V; try discriminate.
    apply verify_id_token_true in V; [|right; left; reflexivity]. destruct V as [x [V _]]. exact (HT t x L V).
Qed.
Lemma logout_iat : forall d, table_ok (cdef C_session_LogoutToken) d -> exists v, dget d (u "iat") = Some v.
Proof.
  intros d H. assert (X : exists v, dget d (u "iat") = Some v /\ ~ empty_value v).
  { eapply (req_present (cdef C_session_LogoutToken) d); [exact H|vm_compute; reflexivity|discriminate|reflexivity|discriminate]. }
  destruct X as (v & Hv & _). exists v. exact Hv.
Qed.
Lemma rules_early : forall K h d t0 s, arg_int K (u "skew") 0 s -> table_ok (cdef C_session_LogoutToken) d -> logout_rules t0 K h d ->
  exists T, forall t h', (t < T)%Z -> ~ logout_rules t K h' d.
Proof.
  intros K h d t0 s Hs HT R. destruct R as [_ _ _ _ _ A _]. destruct (logout_iat d HT) as [v Hv].
  pose proof (A v Hv) as X. apply (past_whole _ _ _ _ Hs) in X. destruct X as (q & Hq & Hl). exists (Qround.Qfloor q - s)%Z. intros t h' L [_ _ _ _ _ B _].
  pose proof (B v Hv) as X. apply (past_whole _ _ _ _ Hs) in X. destruct X as (q2 & Hq2 & Hl2). assert (q2 = q) by congruence. subst q2.
  assert (X : (inject_Z (Qround.Qfloor q) <= inject_Z (t + s))%Q) by (apply Qle_trans with q; [apply Qround.Qfloor_le|exact Hl2]).
  rewrite <- Zle_Qle in X. lia.
Qed.
Lemma c138_logout : forall E K hdr c d d0 t0 s, arg_int K (u "skew") 0 s -> has_logout_token c = true -> verify (clock E t0) K hdr c d = (d0, Ok true) ->
  exists T, forall t d', (t < T)%Z -> verify (clock E t) K hdr c d <> (d', Ok true).
Proof.
  intros E K hdr c d d0 t0 s Hs H V.
  assert (X : c = C_session_LogoutToken \/ c = C_session_BackChannelLogoutRequest) by (destruct c; try (vm_compute in H; discriminate); tauto).
  destruct X as [->| ->].
  - change (pure (logout_token_verify (clock E t0) K (cdef C_session_LogoutToken) hdr) d = (d0, Ok true)) in V. unfold pure in V.
    injection V as _ V. apply logout_verify_ok in V. destruct V as [[T R] _]. destruct (rules_early _ _ _ _ _ Hs T R) as [b B]. exists b.
    intros t d' L X. change (pure (logout_token_verify (clock E t) K (cdef C_session_LogoutToken) hdr) d = (d', Ok true)) in X. unfold pure in X.
    injection X as _ X. apply logout_verify_ok in X. exact (B t hdr L (proj2 (proj1 X))).
  - change (backchannel_verify (clock E t0) K (cdef C_session_BackChannelLogoutRequest) d = (d0, Ok true)) in V.
    apply backchannel_true in V. destruct V as (v & t & lt & h & Hv & Ht & Hf & Hl & _). apply logout_verify_ok in Hl. destruct Hl as [[T R] _].
    destruct (rules_early _ _ _ _ _ Hs T R) as [b B]. exists b. intros t' d' L X.
    change (backchannel_verify (clock E t') K (cdef C_session_BackChannelLogoutRequest) d = (d', Ok true)) in X.
    apply backchannel_true in X. destruct X as (v2 & t2 & lt2 & h2 & Hv2 & Ht2 & Hf2 & Hl2 & _).
    assert (v2 = v) by congruence. subst v2. change (py_str_e (clock E t') v) with (py_str_e (clock E t0) v) in Ht2.
    assert (t2 = t) by congruence. subst t2.
    rewrite (tw_from_jwt E t' t0 K K eq_refl (same_refl K) (fun _ _ _ => eq_refl)) in Hf2. assert (lt2 = lt) by congruence. subst lt2.
    apply logout_verify_ok in Hl2. exact (B t' h2 L (proj2 (proj1 Hl2))).
Qed.
