(** Honest logout tokens are accepted. *)
From Coq Require Import List NArith ZArith QArith Bool String Lia.
From Verif Require Import Base.Ustr Base.UstrLemmas Model.Cls Model.Value Model.Pspec Model.Tables
  Model.Json Model.Message Model.Env Model.Verify Model.Jose
  Spec.JsonSpec Spec.MessageSpec Spec.CodecSpec Spec.VerifySpec Spec.RoundTripSpec Spec.JoseSpec Spec.WireSpec Spec.LogoutSpec
  Proofs.ValueLemmas Proofs.JsonLemmas Proofs.MessageLemmas Proofs.VerifyLemmas Proofs.TokenLemmas Proofs.IdTokenLemmas
  Proofs.OtherVerify Proofs.ResponseLemmas Proofs.ClassVerify Proofs.RoundTrip Proofs.JoseLemmas Proofs.WireLemmas.
Import ListNotations.
Open Scope list_scope.
Open Scope N_scope.

Notation LT := (cdef C_session_LogoutToken).
Notation BR := (cdef C_session_BackChannelLogoutRequest).
Notation slot_lo := (u "__verified_logout_token").

Lemma lt_covers : forall d, covers_defaults LT d.
Proof. intros d k []. Qed.

(** the claims of an honest token pass *)
Lemma logout_ok : forall E K h d alg, logout_claims_ok d -> logout_for (e_now E) K d -> dget h (u "alg") = Some (VStr alg) ->
  (forall a, kget K (u "allowed_sign_alg") = Some a -> a = VStr alg) ->
  logout_token_verify E K LT (Some h) d = Ok true.
Proof.
  intros E K h d alg [C1 C2 C3 C4] [F1 F2 F3] Ha Hk.
  assert (V : verify E K (Some h) C_session_LogoutToken d = (d, Ok true)).
  { apply c51. split.
    - split.
      + intros a (s & Q1 & Q2 & Q3 & Q4).
        assert (Hq : In a [u "iss"; u "aud"; u "iat"; u "jti"; u "events"]).
        { revert Q1 Q3. clear. intros Q1 Q3. cbn in Q1.
          repeat (destruct Q1 as [Q1|Q1]; [injection Q1 as <- <-; cbn in Q3; try discriminate; cbn; tauto|]). destruct Q1. }
        apply Q4. cbn [In] in Hq. destruct Hq as [<-|[<-|[<-|[<-|[<-|[]]]]]];
          try (match goal with |- exists v, dget d ?k = _ /\ _ => destruct (C1 k) as (v & V1 & V2); [cbn [In]; tauto|] end; exists v; split; [exact V1|right; exact V2]).
        eexists. split; [exact C4|]. right. intro X. inversion X.
      + intros a (s & v & al & _ & _ & _ & _ & Hal & _). change (cd_allowed LT) with (@nil (ustr * list value)) in Hal. discriminate.
    - constructor.
      + exact C2.
      + eexists. eexists. split; [exact C4|]. split; [left; reflexivity|reflexivity].
      + exact C3.
      + exact F2.
      + exact F1.
      + intros t Ht. destruct (F3 t Ht) as (z & s & -> & Hs & Hz). exact (past_int _ _ _ _ Hs Hz).
      + intros a Hka _. exists h, (VStr alg). split; [reflexivity|]. split; [exact Ha|].
        rewrite (Hk a Hka). apply py_eq_str_r. reflexivity. }
  unfold verify in V. change (vkind_of C_session_LogoutToken) with KLogoutToken in V. cbn iota in V. unfold pure in V. congruence.
Qed.

Lemma backchannel_passes : forall E K hdr msg tok lt h r alg,
  dget msg (u "logout_token") = Some (VStr tok) -> tok <> [] ->
  from_jwt E 0 LT tok (kw_jar K) (verify_arg K) (id_token_args K) = Ok (lt, Some h) ->
  logout_claims_ok lt -> logout_for (e_now E) K lt -> dget h (u "alg") = Some (VStr alg) ->
  (forall a, kget K (u "allowed_sign_alg") = Some a -> a = VStr alg) -> to_dict LT lt = Ok r ->
  verify E K hdr C_session_BackChannelLogoutRequest msg = (dset msg slot_lo (VMsg C_session_LogoutToken lt), Ok true).
Proof.
  intros E K hdr msg tok lt h r alg Hm Hne Hj H1 H2 H3 H4 Hr.
  unfold verify. change (vkind_of C_session_BackChannelLogoutRequest) with KBackChannel. cbn iota. unfold backchannel_verify.
  assert (B : verify_base BR msg = Ok true).
  { apply verify_base_true. split; [|reflexivity]. split.
    - intros a (s & Q1 & Q2 & Q3 & Q4). cbn in Q1. destruct Q1 as [Q1|[]]. injection Q1 as <- <-. apply Q4.
      exists (VStr tok). split; [exact Hm|]. right. intro X. inversion X. congruence.
    - intros a (s & v & al & _ & _ & _ & _ & Hal & _). discriminate. }
  rewrite B. cbn [checked]. unfold getitem. rewrite Hm. change (py_str_e E (VStr tok)) with (Ok tok). cbn [bind]. rewrite Hj.
  rewrite (logout_ok E K h lt alg) by assumption. change (verified_claim_name (u "logout_token")) with slot_lo.
  assert (S1 : setitem BR msg slot_lo (VMsg C_session_LogoutToken lt) = (dset msg slot_lo (VMsg C_session_LogoutToken lt), Ok tt)) by reflexivity.
  rewrite S1. cbn [andthen]. rewrite Hr. reflexivity.
Qed.

(** tokens made by this library *)
Lemma c125_library : forall J P E K hdr d d1 alg keys life tok msg,
  content canon (cd_param LT) d -> logout_claims_ok d -> logout_for (e_now E) K d ->
  to_jwt J P C_session_LogoutToken d keys alg life = (d1, Ok tok) -> tok <> [] ->
  reads_signed J E alg keys -> can_check E K 0 alg tok ->
  dget msg (u "logout_token") = Some (VStr tok) ->
  exists msg' lt, verify E K hdr C_session_BackChannelLogoutRequest msg = (msg', Ok true) /\
    dget msg' (u "__verified_logout_token") = Some (VMsg C_session_LogoutToken lt) /\ forall k, dget lt k = dget d k.
Proof.
  intros J P E K hdr d d1 alg keys life tok msg H1 H2 H3 H4 Hne H5 [J1 J2 J3] Hm.
  change (to_jwt J P C_session_LogoutToken d keys alg life) with (d, message_to_jwt J LT d keys alg) in H4. injection H4 as <- H4.
  destruct (jwt_read J E 0 LT d alg keys (id_token_args K) (verify_arg K) tok H1 (lt_covers d) H4 H5
    (or_intror (or_intror (J3 _ (id_token_args_passed K))))) as (lt & h & A1 & A2 & _ & A3).
  change (cd_default LT) with (@nil (ustr * value)) in A3. rewrite dupdate_nil in A3 by (apply H1). subst lt.
  destruct (round_trip LT d H1 (lt_covers d)) as (r & _ & _ & R & _).
  exists (dset msg slot_lo (VMsg C_session_LogoutToken d)), d. split; [|split; [apply dget_dset_same|reflexivity]].
  apply (backchannel_passes E K hdr msg tok d h r alg); try assumption. rewrite J1. exact A1.
Qed.

(** tokens made by others *)
Lemma c125_foreign : forall E K hdr l alg h tok msg,
  document tolerated (cd_param LT) l -> logout_claims_ok (as_message l) -> logout_for (e_now E) K (as_message l) ->
  e_jws E (VStr tok) = Ok (Some {| t_hdr := h; t_body := Ok (VDict (as_json l)) |}) -> not_encrypted E tok -> tok <> [] ->
  dget h (u "alg") = Some (VStr alg) -> can_check E K 0 alg tok ->
  dget msg (u "logout_token") = Some (VStr tok) ->
  exists msg', verify E K hdr C_session_BackChannelLogoutRequest msg = (msg', Ok true) /\
    dget msg' (u "__verified_logout_token") = Some (VMsg C_session_LogoutToken (as_message l)).
Proof.
  intros E K hdr l alg h tok msg H1 H2 H3 H4 H5 Hne H6 [J1 J2 J3] Hm.
  exists (dset msg slot_lo (VMsg C_session_LogoutToken (as_message l))). split; [|apply dget_dset_same].
  assert (Hc : content canon (cd_param LT) (as_message l)).
  { split; [rewrite names_message; apply H1|]. intros k w Hin. apply in_message in Hin. destruct Hin as (v & Hin).
    destruct (proj2 H1 k v w Hin) as [X Y]. split; [exact X|]. eapply tolerated_canon, Y. }
  destruct (round_trip LT (as_message l) Hc (lt_covers _)) as (r & _ & _ & R & _).
  apply (backchannel_passes E K hdr msg tok (as_message l) h r alg); try assumption.
  unfold from_jwt. rewrite J1. cbn [negb]. unfold jwt_decrypt. rewrite H5. cbn [bind]. rewrite H4. cbn [bind t_body].
  rewrite (check_trusted E 0 tok _ (verify_arg K) (id_token_args K) alg H4 H6) by (right; right; apply J3, id_token_args_passed).
  cbn [bind]. rewrite (document_read LT l H1). change (cd_default LT) with (@nil (ustr * value)).
  rewrite dupdate_nil by (rewrite names_message; apply H1). reflexivity.
Qed.

(** over the query string *)
Lemma c125_query : forall J P E K hdr d d1 alg keys life tok lax,
  content canon (cd_param LT) d -> logout_claims_ok d -> logout_for (e_now E) K d ->
  to_jwt J P C_session_LogoutToken d keys alg life = (d1, Ok tok) -> scalars tok = true -> tok <> [] ->
  reads_signed J E alg keys -> can_check E K 0 alg tok ->
  exists q msg msg' lt, to_urlencoded BR lax [(u "logout_token", VStr tok)] = Ok q /\
    from_urlencoded BR (cd_default BR) q = (msg, Ok tt) /\
    verify E K hdr C_session_BackChannelLogoutRequest msg = (msg', Ok true) /\
    dget msg' (u "__verified_logout_token") = Some (VMsg C_session_LogoutToken lt) /\ forall k, dget lt k = dget d k.
Proof.
  intros J P E K hdr d d1 alg keys life tok lax H1 H2 H3 H4 Hs Hne H5 H6.
  destruct (url_round_trip BR lax [(u "logout_token", VStr tok)]) as (t & m & A & B & G).
  - split; [repeat constructor; intros []|]. intros k v [E0|[]]. injection E0 as <- <-. split; [reflexivity|].
    change (param_spec (cd_param BR) (u "logout_token")) with (Some sp01). apply UrStr; [intros e; discriminate|reflexivity|exact Hs|exact Hne].
  - intros k [].
  - right. intros k s [E0|[]] _. injection E0 as <- <-. left. reflexivity.
  - destruct (c125_library J P E K hdr d d1 alg keys life tok m H1 H2 H3 H4 Hne H5 H6) as (msg' & lt & V1 & V2 & V3).
    { rewrite G. reflexivity. }
    exists t, m, msg', lt. auto.
Qed.

(** ** ID Tokens made by others *)
Lemma foreign_jwt : forall E K i l alg h tok,
  document tolerated (cd_param IT) l -> e_jws E (VStr tok) = Ok (Some {| t_hdr := h; t_body := Ok (VDict (as_json l)) |}) ->
  not_encrypted E tok -> dget h (u "alg") = Some (VStr alg) -> can_check E K i alg tok ->
  from_jwt E i IT tok true (verify_arg K) (id_token_args K) = Ok (as_message l, Some h).
Proof.
  intros E K i l alg h tok H1 H4 H5 H6 [J1 J2 J3].
  unfold from_jwt. cbn [negb]. unfold jwt_decrypt. rewrite H5. cbn [bind]. rewrite H4. cbn [bind t_body].
  rewrite (check_trusted E i tok _ (verify_arg K) (id_token_args K) alg H4 H6) by (right; right; apply J3, id_token_args_passed).
  cbn [bind]. rewrite (document_read IT l H1). change (cd_default IT) with (@nil (ustr * value)).
  rewrite dupdate_nil by (rewrite names_message; apply H1). reflexivity.
Qed.

Lemma iss_same : forall l v, document tolerated (cd_param IT) l -> dget (as_message l) (u "iss") = Some v ->
  dget (as_json l) (u "iss") = Some v.
Proof.
  intros l v [Hn H] Hv. apply dget_In, in_message in Hv. destruct Hv as (j & Hv). destruct (H _ _ _ Hv) as [_ Hw].
  apply In_dget; [rewrite names_json; exact Hn|]. apply in_json. exists v.
  match type of Hw with tolerated ?o _ _ => let x := eval vm_compute in o in change o with x in Hw end.
  inversion Hw as [s a b W|s d Ht|s t Ht|s x Ht]; subst; try discriminate.
  inversion W; subst; try discriminate; try assumption; exfalso.
  - match goal with X : nests _ _ |- _ => destruct X as ((t & Ht) & _); discriminate end.
  - match goal with X : nests_list _ _ |- _ => destruct X as (Ht & _); discriminate end.
Qed.

Lemma foreign_checked : forall E K i l alg hs h tok ch claim msg,
  document tolerated (cd_param IT) l -> id_claims_ok (as_message l) -> meant_for K (as_message l) -> timely (e_now E) K (as_message l) ->
  hash_of_alg alg hs -> e_jws E (VStr tok) = Ok (Some {| t_hdr := h; t_body := Ok (VDict (as_json l)) |}) ->
  not_encrypted E tok -> dget h (u "alg") = Some (VStr alg) -> alg <> u "none" -> can_check E K i alg tok ->
  (forall v, dget (as_message l) (u "iss") = Some v -> e_kj_in E v = Ok true) ->
  dget msg claim = Some (VStr tok) -> (ch = true -> bound_by E hs msg (as_message l)) ->
  check_id_token E i K ch claim msg = Ok (Some (as_message l)) /\ exists r, to_dict IT (as_message l) = Ok r.
Proof.
  intros E K i l alg hs h tok ch claim msg H1 [C2 C3 C4] M T Ha R1 He R2 Hal Pc P5 Hm Hb.
  pose proof (foreign_jwt E K i l alg h tok H1 R1 He R2 Pc) as B1. destruct Pc as [P2 P3' P4].
  apply last3_unique in Ha. subst hs. set (d := as_message l) in *.
  assert (Hc : content canon (cd_param IT) d).
  { split; [unfold d; rewrite names_message; apply H1|]. intros k w Hin. apply in_message in Hin. destruct Hin as (v & Hin).
    destruct (proj2 H1 k v w Hin) as [X Y]. split; [exact X|]. eapply tolerated_canon, Y. }
  split; [|destruct (round_trip IT d Hc (it_covers d)) as (r & _ & _ & R & _); eauto].
  unfold check_id_token. unfold getitem. rewrite Hm. cbn [bind]. rewrite R1. cbn [bind].
  assert (Al : alg_check K {| t_hdr := h; t_body := Ok (VDict (as_json l)) |} = Ok true).
  { unfold alg_check. cbn [t_hdr]. rewrite R2. destruct (py_eq (VStr alg) (VStr (u "none"))) eqn:En.
    { apply py_eq_str_r in En. congruence. }
    destruct (kget K (u "allowed_sign_alg")) as [a|]; [|reflexivity]. rewrite (P3' a eq_refl).
    unfold py_ne. rewrite (proj2 (py_eq_str_r alg _) eq_refl). reflexivity. }
  rewrite Al. cbn [bind t_body].
  destruct (C2 (u "iss") ltac:(left; reflexivity)) as (iv & I1 & I2).
  assert (Is : issuer_check E K true (VDict (as_json l)) = Ok tt).
  { unfold issuer_check. rewrite P2. cbn [andb py_item]. unfold getitem. rewrite (iss_same l iv H1 I1). cbn [bind]. rewrite (P5 _ I1). reflexivity. }
  rewrite Is. cbn [bind]. change (py_str_e E (VStr tok)) with (Ok tok). cbn [bind]. rewrite P2, B1. cbn [bind].
  assert (V : idtoken_verify E K IT d = Ok true).
  { apply idtoken_verify_ok. split; [|reflexivity]. split.
    - split; [split; [split|]|].
      + intros a (s & Q1 & Q2 & Q3 & Q4).
        assert (Hq : In a [u "iss"; u "sub"; u "aud"; u "exp"; u "iat"]).
        { revert Q1 Q3. clear. intros Q1 Q3.
          assert (F : forallb (fun ps => negb (p_req (snd ps)) || existsb (ueqb (fst ps)) [u "iss"; u "sub"; u "aud"; u "exp"; u "iat"]) (cd_param IT) = true)
            by (vm_compute; reflexivity).
          rewrite forallb_forall in F. specialize (F _ Q1). cbn [fst snd] in F. rewrite Q3 in F. cbn [negb orb] in F.
          apply existsb_exists in F. destruct F as (x & F1 & F2). apply ueqb_eq in F2. subst x. exact F1. }
        apply Q4. destruct (C2 a Hq) as (v & V1 & V2). exists v. split; [exact V1|right; exact V2].
      + intros a (s & v & al & _ & _ & _ & _ & Hall & _). change (cd_allowed IT) with (@nil (ustr * list value)) in Hall. discriminate.
      + exact C3.
      + exact C4.
    - destruct M as [M1 M2 M3 M4 M5]. destruct T as (sk & n & e & it & T3 & T4 & T1 & T2 & T5 & T6). constructor.
      + exact M1.
      + exact M2.
      + intros aud Hau. destruct (canon_aud aud) as (la & ->).
        { apply (proj2 Hc (u "aud")). apply dget_In, Hau. }
        exists (List.length la). split; [constructor|]. intro Hl. apply (M3 _ _ Hau (SzList la) Hl).
      + exact M4.
      + eexists. split; [exact T1|]. exact (exp_int _ _ _ _ T3 T5).
      + eexists. split; [exact T2|]. exact (fresh_int _ _ _ _ _ T3 T4 T6).
      + exact M5. }
  rewrite V. cbn [bind].
  destruct ch; cbn [andb]; [|reflexivity]. specialize (Hb eq_refl).
  unfold hashes_check. rewrite R2.
  assert (Hh : forall p hh e, In (p, hh) [(u "access_token", u "at_hash"); (u "code", u "c_hash")] ->
    hash_check E msg d p hh (u "HS" ++ last3 alg) e = Ok tt).
  { intros p hh e Hp. unfold hash_check. destruct (dget msg p) as [v|] eqn:Ev; [|reflexivity].
    destruct (Hb p hh v Hp Ev) as (t & X1 & X2). rewrite X2, X1. cbn [bind]. unfold py_ne.
    rewrite (proj2 (py_eq_str_r t _) eq_refl). reflexivity. }
  rewrite (Hh (u "access_token") (u "at_hash")) by (cbn [In]; auto). cbn [bind].
  rewrite (Hh (u "code") (u "c_hash")) by (cbn [In]; auto). reflexivity.
Qed.

Lemma c126_foreign : forall E K hdr c l alg hs h tok msg,
  has_id_token_check c -> msg_fits K c msg -> dget msg (u "id_token") = Some (VStr tok) ->
  document tolerated (cd_param IT) l -> id_claims_ok (as_message l) -> meant_for K (as_message l) -> timely (e_now E) K (as_message l) ->
  (subclass c C_oidc_AuthorizationResponse = true -> bound_by E hs msg (as_message l)) -> hash_of_alg alg hs ->
  e_jws E (VStr tok) = Ok (Some {| t_hdr := h; t_body := Ok (VDict (as_json l)) |}) -> not_encrypted E tok ->
  dget h (u "alg") = Some (VStr alg) -> alg <> u "none" -> can_check E K 0 alg tok ->
  (forall v, dget (as_message l) (u "iss") = Some v -> e_kj_in E v = Ok true) ->
  exists msg', verify E K hdr c msg = (msg', Ok true) /\
    dget msg' (u "__verified_id_token") = Some (VMsg C_oidc_IdToken (as_message l)).
Proof.
  intros E K hdr c l alg hs h tok msg Hc F Hm H1 H2 H3 H4 Hb H5 H6 H7 H8 H9 H10 H11.
  destruct (fits_verify E K hdr c msg Hc F) as (m & ch & M1 & M2 & M3). rewrite M3.
  assert (G : forall k, In k [u "id_token"; u "access_token"; u "code"] -> dget m k = dget msg k).
  { intros k Hk. destruct M1 as [->| ->]; [reflexivity|]. rewrite dget_clear. cbn [In] in Hk.
    destruct Hk as [<-|[<-|[<-|[]]]]; reflexivity. }
  destruct (foreign_checked E K 0 l alg hs h tok ch (u "id_token") m H1 H2 H3 H4 H5 H6 H7 H8 H9 H10 H11) as (A1 & r & A3).
  { rewrite G by (left; reflexivity). exact Hm. }
  { intros Hch k hk x Hk Hx. apply (Hb (M2 Hch) k hk x Hk). rewrite <- Hx. symmetry. apply G.
    cbn [In] in Hk |- *. destruct Hk as [Hk|[Hk|[]]]; injection Hk as <- <-; tauto. }
  unfold with_id_token, verify_id_token.
  assert (Hh : dhas m (u "id_token") = true).
  { destruct (dhas m (u "id_token")) eqn:E1; [reflexivity|]. apply dhas_false in E1. rewrite G in E1 by (left; reflexivity). congruence. }
  rewrite Hh, A1. change (verified_claim_name (u "id_token")) with slot_id_token.
  rewrite setitem_slot by (left; reflexivity). cbn [andthen]. rewrite A3.
  eexists. split; [reflexivity|]. apply dget_dset_same.
Qed.

(** ** hints *)
Notation EQ := (cdef C_session_EndSessionRequest).

Lemma hint_checked : forall E K hdr msg tok h idt r, table_ok EQ msg -> dget msg (u "id_token_hint") = Some (VStr tok) ->
  from_jwt E 0 IT tok (kw_jar K) (verify_arg K) (id_token_args K) = Ok (idt, Some h) ->
  (forall m, dget m (u "id_token_hint") = Some (VStr tok) -> check_id_token E 1 K false (u "id_token_hint") m = Ok (Some idt)) ->
  to_dict IT idt = Ok r ->
  exists msg', verify E K hdr C_session_EndSessionRequest msg = (msg', Ok true) /\
    dget msg' (u "__verified_id_token_hint") = Some (VMsg C_oidc_IdToken idt).
Proof.
  intros E K hdr msg tok h idt r Ht Hm Hj Hc Hr. unfold verify.
  change (vkind_of C_session_EndSessionRequest) with KEndSession. cbn iota. unfold end_session_verify.
  rewrite (proj2 (verify_base_true EQ msg _) (conj Ht eq_refl)). cbn [checked].
  assert (G : dget (clear_verified msg) (u "id_token_hint") = Some (VStr tok)).
  { rewrite dget_clear. exact Hm. }
  rewrite G. change (py_str_e E (VStr tok)) with (Ok tok). cbn [bind]. rewrite Hj. unfold verify_id_token.
  rewrite (Hc _ G), Hr. cbn [bind]. change (verified_claim_name (u "id_token_hint")) with slot_hint.
  rewrite !(setitem_slot C_session_EndSessionRequest) by (cbn [In]; tauto). cbn [andthen].
  rewrite !(setitem_slot C_session_EndSessionRequest) by (cbn [In]; tauto). cbn [andthen]. eexists. split; [reflexivity|]. apply dget_dset_same.
Qed.

Lemma hash_of_alg_ex : forall alg, exists hs, hash_of_alg alg hs.
Proof.
  intro alg. destruct (le_lt_dec 3 (List.length alg)) as [H|H].
  - exists (u "HS" ++ skipn (List.length alg - 3) alg), (firstn (List.length alg - 3) alg), (skipn (List.length alg - 3) alg).
    split; [symmetry; apply firstn_skipn|]. split; [reflexivity|]. left. rewrite skipn_length. lia.
  - exists (u "HS" ++ alg), [], alg. split; [reflexivity|]. split; [reflexivity|]. right. auto.
Qed.

Lemma c127_current : forall E K hdr l alg h tok msg,
  table_ok EQ msg -> dget msg (u "id_token_hint") = Some (VStr tok) ->
  document tolerated (cd_param IT) l -> id_claims_ok (as_message l) -> meant_for K (as_message l) -> timely (e_now E) K (as_message l) ->
  e_jws E (VStr tok) = Ok (Some {| t_hdr := h; t_body := Ok (VDict (as_json l)) |}) -> not_encrypted E tok ->
  dget h (u "alg") = Some (VStr alg) -> alg <> u "none" -> can_check E K 0 alg tok -> can_check E K 1 alg tok ->
  (forall v, dget (as_message l) (u "iss") = Some v -> e_kj_in E v = Ok true) ->
  exists msg', verify E K hdr C_session_EndSessionRequest msg = (msg', Ok true) /\
    dget msg' (u "__verified_id_token_hint") = Some (VMsg C_oidc_IdToken (as_message l)).
Proof.
  intros E K hdr l alg h tok msg Ht Hm H1 H2 H3 H4 H5 H6 H7 H8 H9 H10 H11.
  assert (A : forall m, dget m (u "id_token_hint") = Some (VStr tok) ->
    check_id_token E 1 K false (u "id_token_hint") m = Ok (Some (as_message l)) /\ exists r, to_dict IT (as_message l) = Ok r).
  { intros m Hm'. destruct (hash_of_alg_ex alg) as (hs & Ha).
    apply (foreign_checked E K 1 l alg hs h tok false (u "id_token_hint") m); try assumption. discriminate. }
  destruct (A msg Hm) as (_ & r & Hr).
  apply (hint_checked E K hdr msg tok h (as_message l) r); try assumption.
  - rewrite (cc_jar _ _ _ _ _ H9). apply (foreign_jwt E K 0 l alg); assumption.
  - intros m Hm'. apply (A m Hm').
Qed.

(** an accepted hint is not expired *)
Lemma c127_expired : forall E K hdr d d' t, verify E K hdr C_session_EndSessionRequest d = (d', Ok true) ->
  dget d (u "id_token_hint") = Some (VStr t) -> not_encrypted E t ->
  exists idt e, decoded E 0 C_oidc_IdToken t idt /\ dget idt (u "exp") = Some e /\ exp_ok (e_now E) K e.
Proof.
  intros E K hdr d d' t H Ht Hn. destruct (c53_slot E K hdr d d' t H Ht Hn) as (idt & tok & body & D & _ & _ & _ & A).
  destruct (r_exp _ _ _ (a_rules _ _ _ _ _ _ _ _ A)) as (e & E1 & E2). exists idt, e. auto.
Qed.
