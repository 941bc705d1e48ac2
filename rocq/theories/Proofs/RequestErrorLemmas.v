(** The exceptions of verify() of an authorization request that carries a request object. *)
From Coq Require Import List NArith ZArith QArith Bool String Lia.
From Verif Require Import Base.Ustr Base.UstrLemmas Base.Percent Model.Cls Model.Value Model.Pspec Model.Tables Model.Json Model.Message Model.Env Model.Verify
  Spec.MessageSpec Spec.VerifySpec Spec.ErrorSpec Spec.RaiseSpec Spec.TokenErrorSpec Spec.RequestErrorSpec
  Proofs.ValueLemmas Proofs.TypeLemmas Proofs.MessageLemmas Proofs.EncodeLemmas Proofs.VerifyLemmas Proofs.ErrorLemmas Proofs.ResponseLemmas Proofs.AgainLemmas Proofs.RaiseLemmas Proofs.DispatchLemmas
  Proofs.TokenErrorLemmas.
Import ListNotations.
Open Scope list_scope.
Open Scope N_scope.

(** *** exceptions of the library or from outside *)
Definition heard (E : env) {A} (r : res A) : Prop := forall e, r = Err e -> In e SA \/ from_crypto E e.
Lemma heard_ok : forall E A (x : A), heard E (Ok x). Proof. intros E A x e H. discriminate. Qed.
Lemma heard_err : forall E A e, In e SA -> heard E (A := A) (Err e). Proof. intros E A e H e' X. injection X as <-. left. exact H. Qed.
Lemma heard_within : forall E A (r : res A), within SA r -> heard E r. Proof. intros E A r H e X. left. exact (H e X). Qed.
Lemma heard_out : forall E A (r : res A), (forall e, r = Err e -> from_crypto E e) -> heard E r. Proof. intros E A r H e X. right. exact (H e X). Qed.
Lemma heard_bind : forall E A B (r : res A) (f : A -> res B), heard E r -> (forall x, r = Ok x -> heard E (f x)) -> heard E (bind r f).
Proof. intros E A B [x|e] f H H1 e' X; cbn [bind] in X; [exact (H1 x eq_refl e' X)|]. apply H. congruence. Qed.
Lemma heard_checked : forall E A (r : res A) d f, heard E r -> (forall x, r = Ok x -> heard E (snd (f d))) -> heard E (snd (checked r d f)).
Proof. intros E A [x|e] d f H H1; cbn [checked]; [exact (H1 x eq_refl)|]. intros e' X. cbn [snd] in X. apply H. congruence. Qed.
Ltac he := apply heard_err; cbn [In SA]; tauto.

(** reading a token *)
Lemma jwt_heard : forall E i c t vfy args, readable E t ->
  heard E (from_jwt E i (cdef c) t true vfy args) /\
  forall d h, from_jwt E i (cdef c) t true vfy args = Ok (d, h) ->
    exists l, claims_of E t (VDict l) /\ json_only (VDict l) = true /\ from_dict (cdef c) (cd_default (cdef c)) (VDict l) = (d, Ok tt).
Proof.
  intros E i c t vfy args [Ra Rc].
  assert (FD : forall b, claims_of E t b -> heard E (ret_msg (from_dict (cdef c) (cd_default (cdef c)) b)) /\
    forall d, ret_msg (from_dict (cdef c) (cd_default (cdef c)) b) = Ok d ->
      exists l, claims_of E t (VDict l) /\ json_only (VDict l) = true /\ from_dict (cdef c) (cd_default (cdef c)) (VDict l) = (d, Ok tt)).
  { intros b Hb. destruct (Rc b Hb) as (l & -> & J). destruct (from_dict (cdef c) (cd_default (cdef c)) (VDict l)) as [d' [[]|e]] eqn:Ef; cbn [ret_msg]; split.
    - apply heard_ok.
    - intros d Hd. injection Hd as <-. exists l. auto.
    - apply dict_exceptions in Ef. apply heard_err. cbn [In SA] in *. tauto.
    - discriminate. }
  unfold from_jwt. cbn [negb].
  assert (D : (exists t', jwt_decrypt E i t args = Ok t' /\ opens E t t') \/ exists e, jwt_decrypt E i t args = Err e /\ from_crypto E e).
  { unfold jwt_decrypt. cbv zeta. destruct (e_jwe E i t _) as [[t'|]|e] eqn:Ee; cbn [bind].
    - left. exists t'. split; [reflexivity|]. do 2 eexists. left. exact Ee.
    - left. exists t. split; [reflexivity|]. do 2 eexists. right. split; [exact Ee|reflexivity].
    - right. exists e. split; [reflexivity|]. right. eauto. }
  destruct D as [(t' & -> & O)|(e & -> & Oe)]; cbn [bind].
  2: { split; [|discriminate]. apply heard_out. intros e' X. injection X as <-. exact Oe. }
  destruct (e_jws E (VStr t')) as [[tok|]|e] eqn:Ej; cbn [bind].
  - destruct (Ra t' tok O Ej) as [alg Ha]. destruct (t_body tok) as [b|e] eqn:Eb; cbn [bind].
    2: { split; [|discriminate]. apply heard_out. intros e' X. injection X as <-. left. exact (OutPayload E e _ _ Ej Eb). }
    assert (JC : heard E (jwt_check E i t' tok vfy args)).
    { unfold jwt_check. rewrite Ha. destruct (py_eq (VStr alg) (VStr (u "none"))); [apply heard_ok|]. destruct vfy; [|apply heard_ok].
      assert (KS : forall up, heard E (e_kj_keys E i up tok args)) by (intro up; apply heard_out; intros e X; left; exact (OutKeys E e _ _ _ _ X)).
      apply heard_bind; [destruct (e_kj_true E); [apply KS|apply heard_ok]|]. intros key _. destruct key as [|k0 key]; [he|].
      assert (SG : forall ks, heard E (e_sig E t' (jwt_sigalg args) ks)) by (intro ks; apply heard_out; intros e X; left; exact (OutSignature E e _ _ _ X)).
      pose proof (SG (k0 :: key)) as S0.
      destruct (e_sig E t' (jwt_sigalg args) (k0 :: key)) as [[]|e]; [apply heard_ok|].
      destruct e; try exact S0. destruct (e_kj_true E); [|apply heard_ok].
      apply heard_bind; [apply heard_out; intros e X; left; exact (OutUpdate E e _ X)|]. intros _ _. apply heard_bind; [apply KS|]. intros k2 _. apply SG. }
    assert (Cl : claims_of E t b) by (exists t'; split; [exact O|left; eauto]).
    destruct (FD b Cl) as [F1 F2]. split.
    + apply heard_bind; [exact JC|]. intros _ _. apply heard_bind; [exact F1|]. intros d _. apply heard_ok.
    + intros d h H. destruct (jwt_check _ _ _ _ _ _); [|discriminate]. cbn [bind] in H. destruct (ret_msg _) as [d0|] eqn:Er; [|discriminate].
      cbn [bind] in H. injection H as <- <-. exact (F2 d0 eq_refl).
  - pose proof (loads_errors t') as LE. destruct (json_loads t') as [b|e] eqn:Eb; cbn [bind].
    2: { split; [|discriminate]. apply heard_err. specialize (LE e eq_refl). cbn [In SJ SA] in *. tauto. }
    assert (Cl : claims_of E t b) by (exists t'; split; [exact O|right; auto]).
    destruct (FD b Cl) as [F1 F2]. split.
    + apply heard_bind; [exact F1|]. intros d _. apply heard_ok.
    + intros d h H. destruct (ret_msg _) as [d0|] eqn:Er; [|discriminate]. cbn [bind] in H. injection H as <- <-. exact (F2 d0 eq_refl).
  - split; [|discriminate]. apply heard_out. intros e' X. injection X as <-. left. exact (OutParse E e _ Ej).
Qed.

(** *** JWT secured and pushed authorization requests *)
Lemma jar_heard : forall E K c s d t, kw_jar K = true -> c = C_oauth2_JWTSecuredAuthorizationRequest \/ c = C_oauth2_PushedAuthorizationRequest -> readable E t ->
  heard E (snd (jar_merge E K (cdef c) s d (VStr t))).
Proof.
  intros E K c s d t Kj Hc R. unfold jar_merge. cbv zeta. change (py_str_e E (VStr t)) with (@Ok ustr t). cbn [bind]. rewrite Kj.
  destruct (jwt_heard E 0 C_oauth2_AuthorizationRequest t true (request_args K) R) as [J _].
  destruct (from_jwt E 0 (cdef C_oauth2_AuthorizationRequest) t true true (request_args K)) as [[req h]|e]; cbn [snd].
  2: { intros e' X. injection X as <-. apply J. reflexivity. }
  assert (N : dget (cd_param (cdef c)) (verified_claim_name (u "request")) = None) by (destruct Hc as [-> | ->]; vm_compute; reflexivity).
  unfold setitem. rewrite N. apply heard_ok.
Qed.
Theorem jar_raises : forall E K hdr c d t, kw_jar K = true -> In c [C_oauth2_JWTSecuredAuthorizationRequest; C_oauth2_PushedAuthorizationRequest] ->
  dget d (u "request") = Some (VStr t) -> readable E t -> heard E (snd (verify E K hdr c d)).
Proof.
  intros E K hdr c d t Kj Hc Ht R. cbn [In] in Hc. destruct Hc as [<-|[<-|[]]]; unfold verify.
  - change (vkind_of C_oauth2_JWTSecuredAuthorizationRequest) with KJar. cbv iota zeta. unfold jar_verify. rewrite Ht. apply jar_heard; auto.
  - change (vkind_of C_oauth2_PushedAuthorizationRequest) with KPar. cbv iota zeta. unfold par_verify. rewrite Ht. apply jar_heard; auto.
Qed.

(** *** requests for claims *)
Lemma claims_table : text_table (cd_param (cdef C_oidc_Claims)). Proof. intros k s []. Qed.
Lemma one_of_calm : forall n v f x, json_only v = true -> deser_step (lib_n n) (DeOneOf C_oidc_Claims) v f = Ok x -> calm x /\ exists m, x = VMsg C_oidc_Claims m.
Proof.
  intros n v f x J H. cbn [deser_step] in H. unfold de_one_of in H.
  assert (M : forall v1 f1, deser_cls (lib_n n) C_oidc_Claims v1 f1 = Ok x -> exists m, x = VMsg C_oidc_Claims m).
  { intros v1 f1 Hx. unfold deser_cls in Hx. cbv zeta in Hx. destruct (ret_msg _) as [m|]; [|discriminate]. cbn [bind] in Hx. injection Hx as <-. eauto. }
  assert (D : forall v1 f1 f2, json_only v1 = true ->
    match deser_cls (lib_n n) C_oidc_Claims v1 f1 with
    | Err EFormatError => match deser_cls (lib_n n) C_oidc_Claims v1 f2 with Err EFormatError => Err EFormatError | r => r end
    | r => r end = Ok x -> calm x /\ exists m, x = VMsg C_oidc_Claims m).
  { intros v1 f1 f2 J1 H1. destruct (deser_cls (lib_n n) C_oidc_Claims v1 f1) as [a|e] eqn:E1.
    - injection H1 as <-. split; [exact (deser_calm _ _ _ _ _ claims_table eq_refl J1 E1)|exact (M _ _ E1)].
    - destruct e; try discriminate. destruct (deser_cls (lib_n n) C_oidc_Claims v1 f2) as [a|e] eqn:E2; [|destruct e; discriminate].
      injection H1 as <-. split; [exact (deser_calm _ _ _ _ _ claims_table eq_refl J1 E2)|exact (M _ _ E2)]. }
  assert (V : forall v1, dumps_unless_str v = Ok v1 -> json_only v1 = true).
  { intros v1 Hv. unfold dumps_unless_str in Hv. destruct v; try (injection Hv as <-; reflexivity);
      (destruct (json_dumps _) as [t|]; [|discriminate]; cbn [bind] in Hv; injection Hv as <-; reflexivity). }
  destruct f; cbn [bind] in H.
  - exact (D v Furl Fjson J H).
  - destruct (dumps_unless_str v) as [v1|] eqn:Ev; [|discriminate]. cbn [bind] in H. exact (D v1 Fjson Furl (V v1 eq_refl) H).
  - destruct (dumps_unless_str v) as [v1|] eqn:Ev; [|discriminate]. cbn [bind] in H. exact (D v1 Fjson Furl (V v1 eq_refl) H).
Qed.
Lemma claims_add : forall n v x, json_only v = true -> add_val (lib_n (S n)) sp18 v = Ok (Some x) -> x = VNone \/ calm x /\ exists m, x = VMsg C_oidc_Claims m.
Proof.
  intros n v x J H. unfold add_val in H. cbv zeta in H. cbn [sp18 p_typ p_null p_deser] in H.
  assert (D : (do y <- decode_err (l_deser (lib_n (S n)) (DeOneOf C_oidc_Claims) v Fdict) ; Ok (Some y)) = Ok (Some x) -> x = VNone \/ calm x /\ exists m, x = VMsg C_oidc_Claims m).
  { intro Hy. destruct (decode_err _) as [z|] eqn:E; [|discriminate]. cbn [bind] in Hy. injection Hy as <-. apply decode_ok in E. right.
    exact (one_of_calm n v Fdict z J E). }
  destruct v as [| | | |t|l|o|]; cbn [andb isinstance] in H; try discriminate; try exact (D H).
  - injection H as <-. left. reflexivity.
  - destruct l as [|[] l]; cbn [andb negb] in H; try discriminate; exact (D H).
Qed.
Lemma claims_entry : forall n k v x, json_only v = true -> fd_entry (lib_n (S n)) (cd_param (cdef C_oidc_ClaimsRequest)) k v = Ok (Some x) ->
  within T3 (td_entry to_dict_v (ser_of (cd_param (cdef C_oidc_ClaimsRequest)) k) x).
Proof.
  intros n k v x J H. unfold fd_entry in H. destruct (is_blank v); [discriminate|]. unfold ser_of, spec_of.
  assert (A : forall k' s, dget (cd_param (cdef C_oidc_ClaimsRequest)) k' = Some s -> s = sp18).
  { intros k' s Hk. apply dget_In in Hk. cbn in Hk. destruct Hk as [Hk|[Hk|[]]]; congruence. }
  assert (B : add_val (lib_n (S n)) sp18 v = Ok (Some x) -> within T3 (td_entry to_dict_v (p_ser sp18) x)).
  { intro Hx. cbn [sp18 p_ser td_entry ser_dict]. destruct (claims_add _ _ _ J Hx) as [-> |[[Jx|(c & m & -> & Hm)] (m' & Hm')]].
    - apply t3. cbn. tauto.
    - subst x. discriminate.
    - exact Hm. }
  destruct (dget (cd_param (cdef C_oidc_ClaimsRequest)) k) as [s|] eqn:E1; [rewrite (A _ _ E1) in *; exact (B H)|].
  destruct (dget (cd_param (cdef C_oidc_ClaimsRequest)) (base_key k)) as [s|] eqn:E2; [rewrite (A _ _ E2) in *; exact (B H)|].
  change (dget (cd_param (cdef C_oidc_ClaimsRequest)) (u "*")) with (@None pspec) in *. injection H as <-. cbn [td_entry]. rewrite (post_only _ _ J). apply within_ok.
Qed.
Lemma request_calm : forall n v f x, f <> Furl -> json_only v = true -> deser_cls (lib_n (S n)) C_oidc_ClaimsRequest v f = Ok x -> calm x.
Proof.
  intros n v f x Hf J H. unfold deser_cls in H. cbv zeta in H. change (cd_default (cdef C_oidc_ClaimsRequest)) with (@nil (ustr * value)) in H.
  assert (F : forall b d', json_only b = true -> from_dict_gen (lib_n (S n)) (cd_param (cdef C_oidc_ClaimsRequest)) [] b = (d', Ok tt) ->
    within T3 (to_dict_v (VMsg C_oidc_ClaimsRequest d'))).
  { intros b d' Jb Hb. unfold from_dict_gen in Hb. destruct b as [| | | | | |l|]; cbn [items] in Hb; try discriminate.
    apply all_only_iff in Jb. rewrite to_dict_v_msg.
    assert (Nd : NoDup (map fst d')).
    { assert (G : forall l d, NoDup (map fst d) -> from_items (lib_n (S n)) (cd_param (cdef C_oidc_ClaimsRequest)) d l = (d', Ok tt) -> NoDup (map fst d')).
      { clear. induction l as [|[k0 v0] l IH]; intros d Hd Hl; cbn [from_items] in Hl; [injection Hl as <-; exact Hd|].
        destruct (fd_entry _ _ k0 v0) as [[y|]|e]; [|exact (IH d Hd Hl)|discriminate]. refine (IH _ _ Hl). apply dset_nodup, Hd. }
      exact (G l [] (NoDup_nil _) Hb). }
    assert (W : within T3 (to_dict (cdef C_oidc_ClaimsRequest) d')).
    { apply log_all. intros k w Hin. apply (In_dget _ _ _ Nd) in Hin.
      refine (payload_entry _ _ k (fun v => within T3 (td_entry to_dict_v (ser_of (cd_param (cdef C_oidc_ClaimsRequest)) k) v)) l [] d' _ Hb _ w Hin); [|discriminate].
      intros v0 x0 Hi Hx. refine (claims_entry n k v0 x0 _ Hx). exact (Jb _ _ Hi). }
    destruct (to_dict _ d'); [apply within_ok|]. intros e0 X. apply W. congruence. }
  assert (G : forall r, (do d <- ret_msg r ; Ok (VMsg C_oidc_ClaimsRequest d)) = Ok x -> (forall d', r = (d', Ok tt) -> within T3 (to_dict_v (VMsg C_oidc_ClaimsRequest d'))) -> calm x).
  { intros [d' [[]|e]] Hr Ha; cbn [ret_msg bind] in Hr; [|discriminate]. injection Hr as <-. right. exists C_oidc_ClaimsRequest, d'. split; [reflexivity|]. apply Ha. reflexivity. }
  refine (G _ H _). intros d' Hr. destruct f; [destruct (Hf eq_refl)|exact (F v d' J Hr)|].
  unfold from_json_gen in Hr. destruct v as [| | | |s| | |]; try discriminate. destruct (json_loads s) as [b|] eqn:Eb; [|discriminate].
  exact (F b d' (loads_only _ _ Eb) Hr).
Qed.
Lemma de_claims : forall n v f x, json_only v = true -> deser_step (lib_n (S n)) (DeJsonCls C_oidc_ClaimsRequest) v f = Ok x -> calm x.
Proof.
  intros n v f x J H. cbn [deser_step] in H.
  assert (V : forall v1, dumps_unless_str v = Ok v1 -> json_only v1 = true).
  { intros v1 Hv. unfold dumps_unless_str in Hv. destruct v; try (injection Hv as <-; reflexivity);
      (destruct (json_dumps _) as [t|]; [|discriminate]; cbn [bind] in Hv; injection Hv as <-; reflexivity). }
  destruct f.
  - destruct (dumps_unless_str v) as [v1|] eqn:Ev; [|discriminate]. cbn [bind] in H. refine (request_calm n v1 Fjson x _ (V v1 eq_refl) H). discriminate.
  - destruct v as [| | | |s| | |]; try (cbn [bind] in H; refine (request_calm n _ Fdict x _ J H); discriminate).
    destruct (json_loads s) as [b|] eqn:Eb; [|discriminate]. cbn [bind] in H. refine (request_calm n b Fdict x _ (loads_only _ _ Eb) H). discriminate.
  - destruct (dumps_unless_str v) as [v1|] eqn:Ev; [|discriminate]. cbn [bind] in H. refine (request_calm n v1 Fjson x _ (V v1 eq_refl) H). discriminate.
Qed.

(** *** the parameters of an authorization request *)
Definition list_spec (s : pspec) : bool :=
  match p_typ s, p_deser s with TList TStr, Some DeSpSep => true | _, _ => false end.
Definition claims_spec (s : pspec) : bool :=
  match p_typ s, p_deser s with TMsg C_Message, Some (DeJsonCls C_oidc_ClaimsRequest) => true | _, _ => false end.
Definition request_spec (s : pspec) : bool := plain_spec s || list_spec s || claims_spec s.
Lemma sep_only : forall L v f x, json_only v = true -> deser_step L DeSpSep v f = Ok x -> json_only x = true.
Proof.
  intros L v f x J H. cbn [deser_step] in H. destruct v as [| | | |s|[|y [|z l]]| |]; try (injection H as <-; exact J); exact (split_only _ _ H).
Qed.
Lemma list_add : forall s v x, list_spec s = true -> json_only v = true -> add_val the_lib s v = Ok (Some x) -> json_only x = true.
Proof.
  intros s v x Hs J H. unfold list_spec in Hs. unfold add_val in H. cbv zeta in H.
  destruct (match v with VList [] | VList (VNone :: _) => true | _ => false end && negb (p_null s)); [discriminate|].
  destruct (p_typ s) as [| | | | |[]] eqn:Et; try discriminate. destruct (p_deser s) as [[]|] eqn:Ed; try discriminate.
  assert (D : forall f y, (do y <- decode_err (l_deser the_lib DeSpSep v f) ; Ok (Some y)) = Ok (Some y) -> json_only y = true).
  { intros f y Hy. destruct (decode_err _) as [z|] eqn:E; [|discriminate]. cbn [bind] in Hy. injection Hy as <-. apply decode_ok in E.
    exact (sep_only (lib_n 11) v f z J E). }
  destruct v as [| | | |t|l|o|]; cbn [isinstance] in H; try discriminate; try exact (D _ _ H).
  - destruct (p_null s); [injection H as <-; reflexivity|discriminate].
  - destruct (decode_err (l_deser the_lib DeSpSep (VList l) Fdict)) as [y|] eqn:E; [|discriminate]. cbn [bind] in H. apply decode_ok in E.
    pose proof (sep_only (lib_n 11) _ Fdict y J E) as Jy. destruct (py_iter y) as [xs|]; [|discriminate]. cbn [bind] in H.
    destruct (forallb _ xs); [|discriminate]. injection H as <-. exact Jy.
Qed.
Lemma claimsreq_add : forall s v x, claims_spec s = true -> json_only v = true -> add_val the_lib s v = Ok (Some x) -> calm x.
Proof.
  intros s v x Hs J H. unfold claims_spec in Hs. unfold add_val in H. cbv zeta in H.
  destruct (match v with VList [] | VList (VNone :: _) => true | _ => false end && negb (p_null s)); [discriminate|].
  destruct (p_typ s) as [| | | |[]|] eqn:Et; try discriminate. destruct (p_deser s) as [k|] eqn:Ed; [|discriminate].
  assert (Hk : k = DeJsonCls C_oidc_ClaimsRequest) by (destruct k; try discriminate; destruct c; try discriminate; reflexivity). subst k.
  assert (D : (do y <- decode_err (l_deser the_lib (DeJsonCls C_oidc_ClaimsRequest) v Fdict) ; Ok (Some y)) = Ok (Some x) -> calm x).
  { intro Hy. destruct (decode_err _) as [z|] eqn:E; [|discriminate]. cbn [bind] in Hy. injection Hy as <-. apply decode_ok in E.
    exact (de_claims 10 v Fdict z J E). }
  destruct v; cbn [isinstance] in H; try discriminate; try (injection H as <-; left; reflexivity); exact (D H).
Qed.
Lemma request_entry : forall P k v x, (forall k s, In (k, s) P -> request_spec s = true) -> dget P (u "*") = None -> json_only v = true ->
  fd_entry the_lib P k v = Ok (Some x) -> calm x.
Proof.
  intros P k v x HP Hs J Ef. unfold fd_entry in Ef. destruct (is_blank v); [discriminate|].
  assert (A : forall k' s, dget P k' = Some s -> add_val the_lib s v = Ok (Some x) -> calm x).
  { intros k' s Hk Ha. apply dget_In, HP in Hk. unfold request_spec in Hk. rewrite !orb_true_iff in Hk. destruct Hk as [[Hp|Hl]|Hc];
      [left; exact (plain_add _ _ _ Hp J Ha)|left; exact (list_add _ _ _ Hl J Ha)|exact (claimsreq_add _ _ _ Hc J Ha)]. }
  destruct (dget P k) as [s|] eqn:E1; [exact (A _ _ E1 Ef)|]. destruct (dget P (base_key k)) as [s|] eqn:E2; [exact (A _ _ E2 Ef)|].
  rewrite Hs in Ef. injection Ef as <-. left. exact J.
Qed.
(** the same for a query *)
Lemma request_field : forall P k vs x, (forall k s, In (k, s) P -> request_spec s = true) -> dget P (u "*") = None ->
  fu_entry the_lib P k vs = Ok x -> calm x.
Proof.
  intros P k vs x HP Hs Ef. unfold fu_entry in Ef.
  assert (A : match spec_of P k with Some s => request_spec s = true | None => True end).
  { unfold spec_of. destruct (dget P k) as [s|] eqn:E1; [apply dget_In in E1; exact (HP _ _ E1)|].
    destruct (dget P (base_key k)) as [s|] eqn:E2; [apply dget_In in E2; exact (HP _ _ E2)|]. rewrite Hs. exact I. }
  destruct (spec_of P k) as [s|].
  2: { left. destruct vs as [|y [|z vs]]; injection Ef as <-; try reflexivity. apply (texts_only (y :: z :: vs)). }
  assert (D : forall t, match p_deser s with Some d => l_deser the_lib d (VStr t) Furl | None => Ok (VStr t) end = Ok x -> calm x).
  { intros t Ht. unfold request_spec, plain_spec, list_spec, claims_spec in A. destruct (p_deser s) as [k0|].
    2: { injection Ht as <-. left. reflexivity. }
    change (l_deser the_lib k0 (VStr t) Furl) with (deser_step (lib_n 11) k0 (VStr t) Furl) in Ht.
    assert (K0 : k0 = DeList \/ k0 = DeJson \/ k0 = DeSpSep \/ k0 = DeJsonCls C_oidc_ClaimsRequest).
    { destruct k0; try tauto; try (destruct c; try (right; right; right; reflexivity)); exfalso; rewrite !orb_true_iff in A; destruct A as [[A|A]|A];
        repeat match type of A with context [match ?x with _ => _ end] => destruct x; try discriminate A end. }
    destruct K0 as [-> |[-> |[-> | ->]]].
    - left. refine (list_only _ (VStr t) _ _ _ Ht). reflexivity.
    - left. cbn [deser_step] in Ht. exact (loads_only _ _ Ht).
    - left. refine (sep_only _ (VStr t) _ _ _ Ht). reflexivity.
    - refine (de_claims 10 (VStr t) _ _ _ Ht). reflexivity. }
  destruct (p_typ s).
  1-5: destruct vs as [|y [|z vs]]; try discriminate; exact (D y Ef).
  destruct (p_deser s) eqn:Ed; [exact (D (hd [] vs) Ef)|]. injection Ef as <-. left. apply texts_only.
Qed.
Lemma fields_entry : forall L P (Q : value -> Prop) l d d', (forall k vs x, fu_entry L P k vs = Ok x -> Q x) ->
  from_fields L P d l = (d', Ok tt) -> (forall k v, dget d k = Some v -> Q v) -> forall k v, dget d' k = Some v -> Q v.
Proof.
  intros L P Q. induction l as [|[k0 vs] l IH]; intros d d' F H Hd k v Hv; cbn [from_fields] in H; [injection H as <-; exact (Hd k v Hv)|].
  destruct (fu_entry L P k0 vs) as [x|e] eqn:Ef; [|discriminate]. refine (IH (dset d k0 x) d' F H _ k v Hv).
  intros k1 w Hw. rewrite dget_dset in Hw. destruct (ueqb k1 k0); [|exact (Hd _ _ Hw)]. injection Hw as <-. exact (F _ _ _ Ef).
Qed.

Definition is_request (c : cls) : bool := subclass c C_oidc_AuthorizationRequest.
Lemma request_class : forall c, is_request c = true -> vkind_of c = KOidcAuthzRequest /\ cd_default (cdef c) = [] /\
  (forall k s, In (k, s) (cd_param (cdef c)) -> request_spec s = true) /\ dget (cd_param (cdef c)) (u "*") = None /\
  exists s, dget (cd_param (cdef c)) (u "client_id") = Some s /\ p_req s = true /\ p_typ s <> TBool.
Proof.
  intros c H. assert (X : c = C_oidc_AuthorizationRequest \/ c = C_oidc_OpenIDRequest).
  { destruct c; try (vm_compute in H; discriminate); auto. }
  assert (T : forallb (fun ks : ustr * pspec => request_spec (snd ks)) (cd_param (cdef c)) = true) by (destruct X as [-> | ->]; vm_compute; reflexivity).
  split; [destruct X as [-> | ->]; reflexivity|]. split; [destruct X as [-> | ->]; reflexivity|]. split; [|split; [destruct X as [-> | ->]; reflexivity|]].
  - intros k s Hin. rewrite forallb_forall in T. exact (T _ Hin).
  - exists sp01. split; [destruct X as [-> | ->]; reflexivity|]. split; [reflexivity|discriminate].
Qed.
Lemma query_calm : forall c q d, is_request c = true -> from_urlencoded (cdef c) (cd_default (cdef c)) q = (d, Ok tt) -> forall k v, dget d k = Some v -> calm v.
Proof.
  intros c q d Hc H. destruct (request_class c Hc) as (_ & Hd & HP & HS & _). rewrite Hd in H. unfold from_urlencoded, from_qs in H.
  destruct (parse_qs q) as [|p l]; [destruct q; [injection H as <-; discriminate|discriminate]|].
  refine (fields_entry _ _ calm _ [] d _ H _); [|discriminate]. intros k vs x Hx. exact (request_field _ _ _ _ HP HS Hx).
Qed.
Lemma json_calm : forall c l d, is_request c = true -> json_only (VDict l) = true -> from_dict (cdef c) (cd_default (cdef c)) (VDict l) = (d, Ok tt) ->
  forall k v, dget d k = Some v -> calm v.
Proof.
  intros c l d Hc J H k. destruct (request_class c Hc) as (_ & Hd & HP & HS & _). rewrite Hd in H. unfold from_dict, from_dict_gen in H. cbn [items] in H.
  apply all_only_iff in J. refine (payload_entry _ _ k calm l [] d _ H _); [|discriminate].
  intros v0 x Hi Hx. refine (request_entry _ _ _ _ HP HS _ Hx). exact (J _ _ Hi).
Qed.
Lemma quiet : forall v, calm v -> within SA (log_text v).
Proof.
  intros v [J|(c & m & -> & H)]; [destruct v; try discriminate; apply within_ok|]. cbn [log_text]. apply within_bind; [apply t3_sa, H|]. intros; apply within_ok.
Qed.

(** *** the rules of authorization requests for what a request object holds *)
Lemma sep_form : forall s v x, list_spec s = true -> p_null s = false -> add_val the_lib s v = Ok (Some x) -> listed x.
Proof.
  intros s v x Hs Hn H. unfold list_spec in Hs. unfold add_val in H. cbv zeta in H. rewrite Hn in H.
  destruct (p_typ s) as [| | | | |[]] eqn:Et; try discriminate. destruct (p_deser s) as [[]|] eqn:Ed; try discriminate.
  destruct v as [| | | |t|l|o|]; cbn [isinstance andb negb] in H; try discriminate.
  - change (l_deser the_lib DeSpSep (VStr t) Furl) with (@Ok value (VList (map VStr (split_on 32 t)))) in H. cbn [decode_err bind] in H. injection H as <-. left. eauto.
  - destruct (match l with [] | VNone :: _ => true | _ => false end) eqn:Eb.
    { exfalso. destruct l as [|[] l]; discriminate. }
    assert (H' : (do v1 <- decode_err (deser_step (lib_n 11) DeSpSep (VList l) Fdict) ; do xs <- py_iter v1 ;
      if forallb (fun x => isinstance x TStr) xs then Ok (Some v1) else Err EDecodeError) = Ok (Some x)).
    { destruct l as [|[] l]; try discriminate; exact H. }
    assert (T : forall l0, forallb (fun x => isinstance x TStr) l0 = true -> exists l', l0 = map VStr l').
    { clear. induction l0 as [|y l0 IH]; intro Ef; [exists []; reflexivity|]. cbn [forallb] in Ef. apply andb_true_iff in Ef. destruct Ef as [A B].
      destruct (IH B) as [l' ->]. destruct y; try discriminate. exists (s :: l'). reflexivity. }
    destruct (decode_err _) as [y|] eqn:E; [|discriminate]. cbn [bind] in H'. apply decode_ok in E. cbn [deser_step] in E.
    assert (Y : exists l', y = VList l').
    { destruct l as [|z [|z' l]]; [injection E as <-; eauto| |injection E as <-; eauto]. destruct z; try discriminate. cbn [sp_split] in E. injection E as <-. eauto. }
    destruct Y as [l' ->]. cbn [py_iter bind] in H'. destruct (forallb _ l') eqn:Ef; [|discriminate]. injection H' as <-. destruct (T _ Ef) as [l2 ->]. left. eauto.
  - change (l_deser the_lib DeSpSep (VDict o) Fdict) with (@Ok value (VDict o)) in H. cbn [decode_err bind] in H. injection H as <-. right. eauto.
Qed.
Lemma listed_in : forall t v, listed v -> exists b, py_in (VStr t) v = Ok b.
Proof. intros t v H. apply form_in; [right; exists t; reflexivity|exact H]. Qed.
Lemma rules_listed : forall K d, (forall k v, In k [u "response_type"; u "scope"; u "prompt"] -> dget d k = Some v -> listed v) -> within SA (request_rules K d).
Proof.
  intros K d H. unfold request_rules. destruct (dget d (u "response_type")) as [rt|] eqn:Er; [|sa].
  destruct (listed_in (u "id_token") rt) as [b ->]; [apply (H (u "response_type")); [cbn [In]; tauto|exact Er]|]. cbn [bind].
  apply within_bind.
  { destruct b; [|apply within_ok]. destruct (dget d (u "nonce")); [|sa]. destruct (kget K (u "nonce")); [ri|apply within_ok]. }
  intros _ _. cbv zeta. assert (S : listed (get d (u "scope") (VList []))).
  { unfold get. destruct (dget d (u "scope")) as [v|] eqn:Es; [apply (H (u "scope")); [cbn [In]; tauto|exact Es]|]. left. exists []. reflexivity. }
  destruct (listed_in (u "openid") _ S) as [b1 ->]. cbn [bind]. apply within_bind; [ri|]. intros _ _.
  destruct (listed_in (u "offline_access") _ S) as [b2 ->]. cbn [bind].
  destruct (dget d (u "prompt")) as [p|] eqn:Ep.
  - assert (L : listed p) by (apply (H (u "prompt")); [cbn [In]; tauto|exact Ep]).
    destruct (listed_in (u "consent") p L) as [b3 X3]. destruct (listed_in (u "none") p L) as [b4 X4]. destruct (form_len p L) as [n X5].
    apply within_bind; [destruct b2; [rewrite X3; cbn [bind]; ri|apply within_ok]|]. intros _ _.
    apply within_bind; [rewrite X4; cbn [bind]; destruct b4; [rewrite X5; cbn [bind]; ri|apply within_ok]|]. intros _ _. apply within_ok.
  - apply within_bind; [destruct b2; [sa|apply within_ok]|]. intros _ _. apply within_ok.
Qed.

(** *** OpenID Connect authorization requests *)
Lemma replaced : forall d ro k, NoDup (map fst ro) -> dget (ro_replace d ro) k = dget ro k.
Proof.
  intros d ro k Nr. unfold ro_replace. rewrite dget_dupdate by exact Nr.
  destruct (dget ro k) as [v|] eqn:E; [reflexivity|]. rewrite (dget_filter (fun k => dhas ro k)). unfold dhas. rewrite E. reflexivity.
Qed.
Lemma hint_text : forall v t, json_only v = true -> add_val the_lib sp00 v = Ok (Some (VStr t)) -> v = VStr t.
Proof.
  intros v t J H. unfold add_val in H. cbv zeta in H. cbn [sp00 p_typ p_null p_deser] in H.
  destruct v as [| | | |t'|l|d|c m]; cbn [isinstance andb negb] in H; try discriminate; [congruence|]. destruct l as [|[] l]; discriminate.
Qed.
Theorem request_raises : forall E K hdr c d t, is_request c = true -> kw_jar K = true -> (forall k v, dget d k = Some v -> calm v) ->
  dget d (u "request") = Some (VStr t) -> request_readable E t -> heard E (snd (verify E K hdr c d)).
Proof.
  intros E K hdr c d t Hc Kj Q Ht [R Rh]. destruct (request_class c Hc) as (Hk & _ & _ & _ & sc & Cs & Cr & Ct).
  unfold verify. rewrite Hk. cbv iota zeta. unfold oidc_authz_request_verify. apply heard_checked; [apply heard_within, base_raises|]. intros b B. cbv zeta.
  assert (A : exists args, authz_args K (clear_verified d) = Ok args).
  { destruct (required_truthy _ _ (u "client_id") sc _ B Cs Cr Ct) as (cl & Cl & _); [reflexivity|]. unfold authz_args. destruct (khas K (u "opponent_id")); [eauto|].
    rewrite dget_clear. change (ueqb (u "client_id") slot_id_token || _ || _) with false. rewrite Cl. eauto. }
  destruct A as [args ->].
  assert (Ht' : dget (clear_verified d) (u "request") = Some (VStr t)).
  { rewrite dget_clear. change (ueqb (u "request") slot_id_token || _ || _) with false. exact Ht. }
  unfold request_step. rewrite Ht', Kj.
  destruct (jwt_heard E 0 C_oidc_OpenIDRequest t true args R) as [J1 J2].
  destruct (from_jwt E 0 (cdef C_oidc_OpenIDRequest) t true true args) as [[ro h]|e]; [|cbn [andthen snd]; intros e' X; injection X as <-; apply J1; reflexivity].
  destruct (J2 ro h eq_refl) as (l & Cl & J & Hf).
  pose proof (json_calm C_oidc_OpenIDRequest l ro eq_refl J Hf) as Qr.
  assert (Nr : NoDup (map fst ro)) by exact (from_dict_nodup (cdef C_oidc_OpenIDRequest) (VDict l) [] ro (Ok tt) (NoDup_nil _) Hf).
  assert (Lg : within SA (ro_log (clear_verified d) ro)).
  { unfold ro_log. apply within_bind; [|intros; apply within_ok]. apply within_mapM. intros [k v] Hin. cbn [fst snd].
    destruct (dget (clear_verified d) k) as [x|] eqn:Ex; [|apply within_ok]. destruct (py_ne x v); [|apply within_ok].
    apply within_bind; [apply quiet|intros _ _; apply quiet].
    - rewrite dget_clear in Ex. destruct (_ || _ || _); [discriminate|]. exact (Q k x Ex).
    - apply (Qr k v). apply In_dget; assumption. }
  destruct (ro_log (clear_verified d) ro) as [[]|e]; [|cbn [andthen snd]; intros e' X; injection X as <-; left; apply Lg; reflexivity].
  assert (N : dget (cd_param (cdef c)) (verified_claim_name (u "request")) = None).
  { destruct c; try (vm_compute in Hc; discriminate); vm_compute; reflexivity. }
  assert (N2 : dget (cd_param (cdef c)) (u "verified_id_token_hint") = None).
  { destruct c; try (vm_compute in Hc; discriminate); vm_compute; reflexivity. }
  unfold setitem. rewrite N. cbn [andthen].
  set (d2 := dset (ro_replace (clear_verified d) ro) (verified_claim_name (u "request")) (VMsg C_oidc_OpenIDRequest ro)).
  assert (G : forall k, ueqb k (verified_claim_name (u "request")) = false -> dget d2 k = dget ro k).
  { intros k Ek. unfold d2. rewrite dget_dset, Ek. apply replaced, Nr. }
  assert (F : forall k s (P : value -> Prop), dget (cd_param (cdef C_oidc_OpenIDRequest)) k = Some s -> (forall v x, In (k, v) l -> add_val the_lib s v = Ok (Some x) -> P x) ->
    forall v, dget ro k = Some v -> P v).
  { intros k s P Hs HP. unfold from_dict, from_dict_gen in Hf. cbn [items] in Hf. refine (payload_entry _ _ k P l [] ro _ Hf _); [|discriminate].
    intros v x Hin Hx. apply (HP v x Hin). unfold fd_entry in Hx. destruct (is_blank v); [discriminate|]. rewrite Hs in Hx. exact Hx. }
  assert (LL : forall k v, In k [u "response_type"; u "scope"; u "prompt"] -> dget ro k = Some v -> listed v).
  { intros k v Hin. assert (X : exists s, dget (cd_param (cdef C_oidc_OpenIDRequest)) k = Some s /\ list_spec s = true /\ p_null s = false).
    { cbn [In] in Hin. destruct Hin as [<-|[<-|[<-|[]]]]; eexists; (split; [reflexivity|split; reflexivity]). }
    destruct X as (s & X1 & X2 & X3). apply (F k s listed X1). intros v0 x _ Hx. exact (sep_form _ _ _ X2 X3 Hx). }
  assert (K3 : forall k, In k [u "response_type"; u "scope"; u "prompt"] -> ueqb k (verified_claim_name (u "request")) = false /\ ueqb k (u "verified_id_token_hint") = false).
  { intros k Hin. cbn [In] in Hin. destruct Hin as [<-|[<-|[<-|[]]]]; split; reflexivity. }
  unfold hint_step.
  assert (Gh : dget d2 (u "id_token_hint") = dget ro (u "id_token_hint")) by (apply G; reflexivity).
  rewrite Gh. clearbody d2.
  destruct (dget ro (u "id_token_hint")) as [[| | | |th| | |]|] eqn:Eh.
  5: { rewrite Kj.
    assert (Rt : readable E th).
    { apply (Rh l th Cl). destruct (json_only (VDict l)) eqn:Jl; [|discriminate]. apply all_only_iff in Jl.
      refine (F (u "id_token_hint") sp00 (fun x => forall th, x = VStr th -> In (u "id_token_hint", VStr th) l) eq_refl _ _ Eh th eq_refl).
      intros v x Hin Hx th0 ->. rewrite <- (hint_text v th0 (Jl _ _ Hin) Hx). exact Hin. }
    destruct (jwt_heard E 1 C_oidc_IdToken th true args Rt) as [J3 _].
    destruct (from_jwt E 1 (cdef C_oidc_IdToken) th true true args) as [[idt hh]|e]; [|cbn [andthen snd]; intros e' X; injection X as <-; apply J3; reflexivity].
    unfold setitem. rewrite N2. cbn [andthen snd]. apply heard_within, rules_listed. intros k v Hin Hv. destruct (K3 k Hin) as [K31 K32].
    rewrite dget_dset, K32, (G k K31) in Hv. exact (LL k v Hin Hv). }
  all: cbn [andthen snd]; apply heard_within, rules_listed; intros k v Hin Hv; destruct (K3 k Hin) as [K31 _]; rewrite (G k K31) in Hv; exact (LL k v Hin Hv).
Qed.

Lemma heard_spec : forall E A (r : res A) e, heard E r -> r = Err e -> anticipated e \/ from_crypto E e \/ e = OutOfModel.
Proof.
  intros E A r e H X. destruct (H e X) as [W|W]; [|auto]. unfold anticipated. cbn [In SA] in *. assert (Y : OutOfModel = e -> e = OutOfModel) by congruence. tauto.
Qed.
Theorem c164_secured : forall E K hdr c d t d' e, In c [C_oauth2_JWTSecuredAuthorizationRequest; C_oauth2_PushedAuthorizationRequest] -> kw_jar K = true ->
  dget d (u "request") = Some (VStr t) -> readable E t -> verify E K hdr c d = (d', Err e) -> anticipated e \/ from_crypto E e \/ e = OutOfModel.
Proof.
  intros E K hdr c d t d' e Hc Kj Ht R V. pose proof (jar_raises E K hdr c d t Kj Hc Ht R) as H. rewrite V in H. exact (heard_spec _ _ _ _ H eq_refl).
Qed.
Theorem c164_query : forall E K hdr c q d t d' e, subclass c C_oidc_AuthorizationRequest = true -> kw_jar K = true ->
  from_urlencoded (cdef c) (cd_default (cdef c)) q = (d, Ok tt) -> dget d (u "request") = Some (VStr t) -> request_readable E t ->
  verify E K hdr c d = (d', Err e) -> anticipated e \/ from_crypto E e \/ e = OutOfModel.
Proof.
  intros E K hdr c q d t d' e Hc Kj Hq Ht R V. pose proof (request_raises E K hdr c d t Hc Kj (query_calm c q d Hc Hq) Ht R) as H. rewrite V in H.
  exact (heard_spec _ _ _ _ H eq_refl).
Qed.
Theorem c164_json : forall E K hdr c l d t d' e, subclass c C_oidc_AuthorizationRequest = true -> kw_jar K = true ->
  json_only (VDict l) = true -> from_dict (cdef c) (cd_default (cdef c)) (VDict l) = (d, Ok tt) -> dget d (u "request") = Some (VStr t) -> request_readable E t ->
  verify E K hdr c d = (d', Err e) -> anticipated e \/ from_crypto E e \/ e = OutOfModel.
Proof.
  intros E K hdr c l d t d' e Hc Kj J Hq Ht R V. pose proof (request_raises E K hdr c d t Hc Kj (json_calm c l d Hc J Hq) Ht R) as H. rewrite V in H.
  exact (heard_spec _ _ _ _ H eq_refl).
Qed.
