(** The exceptions of verify() of requests for verified claims. *)
From Coq Require Import List NArith ZArith QArith Bool String Lia.
From Verif Require Import Base.Ustr Base.UstrLemmas Model.Cls Model.Value Model.Pspec Model.Tables Model.Json Model.Message Model.IdentityAssurance Model.Env Model.Verify
  Spec.JsonSpec Spec.MessageSpec Spec.VerifySpec Spec.ErrorSpec Spec.RaiseSpec Spec.IdaSpec Spec.ClaimsErrorSpec
  Proofs.ValueLemmas Proofs.TypeLemmas Proofs.MessageLemmas Proofs.VerifyLemmas Proofs.JsonLemmas Proofs.IdaLemmas Proofs.ErrorLemmas Proofs.RaiseLemmas.
Import ListNotations.
Open Scope list_scope.
Open Scope N_scope.

Definition only_value (r : res unit) : Prop := forall e, r = Err e -> e = EValueError.
Lemma ov_ok : only_value (Ok tt). Proof. intros e H. discriminate. Qed.
Lemma ov_mapM : forall A (f : A -> res unit) l, (forall x, In x l -> only_value (f x)) -> only_value (do _ <- mapM f l ; Ok tt).
Proof.
  intros A f l H e. destruct (mapM f l) as [r|e0] eqn:E; cbn [bind]; [discriminate|]. intro X. injection X as <-.
  apply mapM_err in E. destruct E as (x & Hx & Ex). exact (H x Hx e0 Ex).
Qed.

Lemma elements_iter : forall v l, elements v l -> exists l', py_iter v = Ok l'.
Proof. intros v l H. apply elements_iff in H. eauto. Qed.
Lemma purpose_fine : forall p, (truthy p = true -> has_form Texts p) -> exists b, purpose_ok p = Ok b.
Proof.
  intros p H. unfold purpose_ok. destruct (truthy p); [|eauto]. destruct (H eq_refl) as [[s ->]|[l ->]]; cbn [py_len bind].
  - destruct (_ || _); [eauto|]. cbn [py_iter bind]. rewrite <- (map_map (fun c => [c]) VStr). apply chars_fine.
  - destruct (_ || _); [eauto|]. cbn [py_iter bind]. apply chars_fine.
Qed.
Lemma single_fine : forall t v, simple t -> single_shape v -> only_value (claims_value_check v t).
Proof.
  intros t v Ht Hv e H. unfold claims_value_check in H.
  assert (G : exists b, claims_value v t = Ok b).
  { destruct v as [| | | | | |d|]; cbn [claims_value]; eauto. destruct (Hv d eq_refl) as [H1 H2].
    destruct (negb _); [eauto|].
    assert (Hb : exists b, (if truthy (get d (u "value") VNone) then correct_value_type (get d (u "value") VNone) t else Ok true) = Ok b).
    { destruct (truthy _); [|eauto]. destruct Ht as [->|[->| ->]]; cbn [correct_value_type]; eauto. }
    destruct Hb as (b & ->). cbn [bind]. destruct (negb b); [eauto|].
    assert (Hi : exists l, py_iter (get d (u "values") (VList [])) = Ok l).
    { rewrite get_spec. destruct (dget d (u "values")) as [x|]; [|exists []; reflexivity]. destruct (H1 x eq_refl) as (l & Hl).
      exact (elements_iter x l Hl). }
    destruct Hi as (l & ->). cbn [bind]. destruct (all_types_iff t l Ht) as (b' & -> & _). cbn [bind]. destruct b'; [|eauto].
    apply purpose_fine. rewrite get_spec. destruct (dget d (u "purpose")) as [x|]; [exact (H2 x eq_refl)|discriminate]. }
  destruct G as (b & G). rewrite G in H. cbn [bind] in H. destruct b; congruence.
Qed.

Lemma shaped_simple : forall t v, simple t -> shaped t v -> single_shape v.
Proof.
  intros t v Ht H. inversion H; subst; auto; try (destruct Ht as [Ht|[Ht|Ht]]; discriminate). all: intros d X; discriminate.
Qed.
Lemma shaped_text : forall c s, shaped (TMsg c) (VStr s) -> cd_param (cdef c) = [].
Proof.
  intros c s H. inversion H; subst.
  - match goal with X : simple _ |- _ => destruct X as [X|[X|X]]; discriminate end.
  - match goal with X : mapping _ _ |- _ => destruct X as [X|[? X]]; discriminate end.
  - assumption.
Qed.
Lemma elem_fine : forall rec t v, (forall c, v <> VNone -> shaped (TMsg c) v -> only_value (rec v c)) -> shaped t v -> only_value (check_elem rec t v).
Proof.
  intros rec t v H Hs. destruct (simple_dec t) as [Ht|Ht].
  - assert (E : check_elem rec t v = claims_value_check v t) by (destruct Ht as [->|[->| ->]]; reflexivity).
    rewrite E. apply single_fine; [exact Ht|exact (shaped_simple t v Ht Hs)].
  - destruct t as [| | | |c|t]; try (exfalso; apply Ht; unfold simple; auto; fail); cbn [check_elem]; try apply ov_ok.
    destruct (value_eq_none v) as [->|Hv]; [apply ov_ok|].
    assert (E : (match v with VNone => Ok tt | _ => rec v c end) = rec v c) by (destruct v; congruence).
    rewrite E. exact (H c Hv Hs).
Qed.
Lemma member_fine : forall rec v t, (forall c, v <> VNone -> shaped (TMsg c) v -> only_value (rec v c)) ->
  (forall l x, v = VList l -> In x l -> forall c, x <> VNone -> shaped (TMsg c) x -> only_value (rec x c)) -> shaped t v -> only_value (check_member rec v t).
Proof.
  intros rec v t H Hl Hs. destruct (simple_dec t) as [Ht|Ht].
  - assert (E : check_member rec v t = claims_value_check v t) by (destruct Ht as [->|[->| ->]]; reflexivity).
    rewrite E. apply single_fine; [exact Ht|exact (shaped_simple t v Ht Hs)].
  - destruct t as [| | | |c|t]; try (exfalso; apply Ht; unfold simple; auto; fail); cbn [check_member].
    + apply ov_ok.
    + destruct (value_eq_none v) as [->|Hv]; [apply ov_ok|].
      assert (E : (match v with VNone => Ok tt | _ => rec v c end) = rec v c) by (destruct v; congruence).
      rewrite E. exact (H c Hv Hs).
    + inversion Hs as [t' v' Hsm| | |c' v' d' Hm Hd| |t' v' l He Hx]; subst.
      * exfalso. destruct Hsm as [Hsm|[Hsm|Hsm]]; discriminate.
      * apply ov_ok.
      * destruct v as [|b|z|q|s|m|d|c' d]; cbn [elements] in He; try contradiction; subst l; apply ov_mapM.
        -- intros a Ha. apply elem_fine; [intros c _ X; rewrite (shaped_text c _ X); apply ov_ok|]. apply Hx, in_map_iff. eauto.
        -- intros a Ha. apply elem_fine; [|exact (Hx a Ha)]. intros c. exact (Hl m a eq_refl Ha c).
        -- intros a Ha. apply elem_fine; [intros c _ X; rewrite (shaped_text c _ X); apply ov_ok|]. apply Hx, in_map_iff. eauto.
        -- intros a Ha. apply elem_fine; [intros c _ X; rewrite (shaped_text c _ X); apply ov_ok|]. apply Hx, in_map_iff. eauto.
Qed.
Lemma map_fine : forall v d, mapping v d ->
  (forall k x, dget d k = Some x -> forall t, shaped t x -> only_value (check_member verify_claims_request x t)) ->
  forall c, shaped (TMsg c) v -> only_value (verify_claims_request v c).
Proof.
  intros v d Hm IH c Hs e He. rewrite (request_map v d c Hm) in He.
  destruct (proj2 (check_params_iff _ _) e He) as (k & s & f & Hin & Hf & E).
  rewrite (dget_map _ _ (check_member verify_claims_request)) in Hf. destruct (dget d k) as [x|] eqn:Ex; [|discriminate]. injection Hf as <-.
  refine (IH k x Ex (p_typ s) _ e E). inversion Hs as [t' v' Hsm| | |c' v' d' Hm' Hd| |]; subst.
  - exfalso. destruct Hsm as [Hsm|[Hsm|Hsm]]; discriminate.
  - destruct Hm as [Hm|[? Hm]]; discriminate.
  - assert (d' = d) by (destruct Hm as [->|[? ->]]; destruct Hm' as [X|[? X]]; congruence). subst d'. exact (Hd k s x Hin Ex).
  - match goal with X : cd_param _ = [] |- _ => rewrite X in Hin; destruct Hin end.
Qed.
Definition fine (v : value) : Prop := forall c, v <> VNone -> shaped (TMsg c) v -> only_value (verify_claims_request v c).
Theorem shaped_fine : forall v, fine v.
Proof.
  intro v.
  assert (G : fine v /\ forall l x, v = VList l -> In x l -> fine x).
  { assert (N : forall v, (forall d, ~ mapping v d) -> fine v).
    { intros w Hw c Hn H. inversion H; subst; try congruence.
      - match goal with X : simple _ |- _ => destruct X as [X|[X|X]]; discriminate end.
      - exfalso. eapply Hw; eassumption.
      - intros e0 X. destruct w; cbn [verify_claims_request] in X; match goal with Y : cd_param _ = [] |- _ => rewrite Y in X end; discriminate. }
    induction v as [|b|z|q|s|l IH|d IH|c0 d IH] using value_ind'.
    1-5: split; [apply N; intros ? [?|[? ?]]; discriminate|discriminate].
    - split; [apply N; intros ? [?|[? ?]]; discriminate|]. intros l' x E Hx. injection E as <-. rewrite Forall_forall in IH. exact (proj1 (IH x Hx)).
    - split; [|discriminate]. intros c _. revert c. apply (map_fine (VDict d) d); [left; reflexivity|]. intros k x Hx t Hs.
      pose proof (dget_in_forall (fun v => fine v /\ forall l x, v = VList l -> In x l -> fine x) d k x IH Hx) as [G1 G2].
      apply member_fine; [exact G1|exact G2|exact Hs].
    - split; [|discriminate]. intros c _. revert c. apply (map_fine (VMsg c0 d) d); [right; eauto|]. intros k x Hx t Hs.
      pose proof (dget_in_forall (fun v => fine v /\ forall l x, v = VList l -> In x l -> fine x) d k x IH Hx) as [G1 G2].
      apply member_fine; [exact G1|exact G2|exact Hs]. }
  exact (proj1 G).
Qed.

(** ** The messages *)
Lemma SA_anticipated : forall e, In e SA -> anticipated e \/ e = OutOfModel.
Proof. intros e H. cbn [In SA] in H. unfold anticipated. cbn [In]. intuition auto 40. Qed.
Lemma request_verify_raises : forall c base d e, shaped (TMsg base) (VDict d) -> request_verify (cdef c) base d = Err e -> anticipated e \/ e = OutOfModel.
Proof.
  intros c base d e Hs H. unfold request_verify in H. pose proof (base_raises (cdef c) d) as B. destruct (verify_base (cdef c) d) as [b|e0]; cbn [bind] in H.
  - destruct (verify_claims_request (VDict d) base) as [[]|e0] eqn:E; cbn [bind] in H; [discriminate|]. injection H as <-. left.
    assert (N : VDict d <> VNone) by discriminate. rewrite (shaped_fine (VDict d) base N Hs e0 E). unfold anticipated. cbn [In]. tauto.
  - injection H as <-. apply SA_anticipated. apply B. reflexivity.
Qed.

(** reading an object into a message without table leaves its members *)
Lemma untabled : forall L l d, NoDup (map fst l) -> forall m, from_items L [] d l = (m, Ok tt) ->
  forall k x, dget m k = Some x -> dget l k = Some x \/ dget d k = Some x.
Proof.
  intros L. induction l as [|[k0 v] l IH]; intros d Hn m H k x Hx; [cbn [from_items] in H; injection H as <-; right; exact Hx|].
  inversion Hn as [|? ? Hni Hn']; subst. cbn [from_items] in H. unfold fd_entry in H. cbn [dget] in H |- *.
  assert (K : dget l k = Some x -> ueqb k k0 = false).
  { intro G. destruct (ueqb k k0) eqn:E; [|reflexivity]. apply ueqb_eq in E. subst k0. exfalso. apply Hni. apply dget_In in G. apply (in_map fst) in G. exact G. }
  destruct (is_blank v).
  - destruct (IH d Hn' m H k x Hx) as [G|G]; [left; rewrite (K G); exact G|right; exact G].
  - destruct (IH _ Hn' m H k x Hx) as [G|G]; [left; rewrite (K G); exact G|]. rewrite dget_dset in G.
    destruct (ueqb k k0); [left; exact G|right; exact G].
Qed.
Lemma shaped_object : forall c v d, mapping v d -> shaped (TMsg c) v ->
  forall k s x, In (k, s) (cd_param (cdef c)) -> dget d k = Some x -> shaped (p_typ s) x.
Proof.
  intros c v d Hm H. inversion H as [t' v' Hsm| | |c' v' d' Hm' Hd| |]; subst.
  - exfalso. destruct Hsm as [Hsm|[Hsm|Hsm]]; discriminate.
  - destruct Hm as [Hm|[? Hm]]; discriminate.
  - assert (d' = d) by (destruct Hm as [->|[? ->]]; destruct Hm' as [X|[? X]]; congruence). subst d'. exact Hd.
  - intros k s x Hk. match goal with X : cd_param _ = [] |- _ => rewrite X in Hk; destruct Hk end.
Qed.
Lemma read_shaped : forall s c0 b v x, p_typ s = TMsg c0 -> p_deser s = Some DeMsg -> json_value v -> shaped (TMsg b) v ->
  add_val the_lib s v = Ok (Some x) -> shaped (TMsg b) x.
Proof.
  intros s c0 b v x T D J Hs H. unfold add_val in H. rewrite T, D in H. cbv zeta in H. destruct (_ && negb (p_null s)); [discriminate|].
  inversion Hs as [t' v' Hsm| | |c' v' l Hm Hd| |]; subst.
  - exfalso. destruct Hsm as [Hsm|[Hsm|Hsm]]; discriminate.
  - injection H as <-. apply ShNull.
  - destruct Hm as [->|[? ->]]; [|inversion J]. cbn [isinstance] in H.
    destruct (json_codec _ J) as (t & Dt & _ & Lt). assert (Hn : NoDup (map fst l)) by (inversion J; assumption).
    change (l_deser the_lib DeMsg) with (de_msg (lib_n 11) C_Message) in H. unfold de_msg in H. rewrite Dt in H. cbn [bind] in H.
    unfold deser_cls in H. change (cd_param (cdef C_Message)) with (@nil (ustr * pspec)) in H. change (cd_default (cdef C_Message)) with (@nil (ustr * value)) in H.
    unfold from_json_gen in H. rewrite Lt in H. unfold from_dict_gen in H. cbn [items] in H.
    destruct (from_items (lib_n 11) [] [] l) as [m [[]|e]] eqn:E; cbn [ret_msg bind decode_err] in H; [|destruct (artefact e); discriminate].
    injection H as <-. apply (ShObject b _ m); [right; eauto|]. intros k s' y Hk Hy.
    destruct (untabled _ _ _ Hn m E k y Hy) as [G|G]; [exact (Hd k s' y Hk G)|discriminate].
  - apply ShAny. assumption.
Qed.
Lemma read_request : forall kws m, json_value (VDict kws) -> shaped (TMsg C_ida_VerifiedClaims) (VDict kws) ->
  construct (cdef C_ida_VerifiedClaimsRequest) kws = Ok m -> shaped (TMsg C_ida_VerifiedClaims) (VDict m).
Proof.
  intros kws m J Hs H. assert (Hn : NoDup (map fst kws)) by (inversion J; assumption).
  unfold construct, construct_gen in H. destruct (dhas kws (u "self")); [discriminate|].
  set (d0 := match dget kws (u "set_defaults") with Some b => _ | None => _ end) in H.
  assert (E0 : d0 = []) by (unfold d0; destruct (dget kws (u "set_defaults")) as [w|]; [destruct (truthy w)|]; reflexivity). rewrite E0 in H. clear d0 E0.
  destruct (from_items the_lib (cd_param (cdef C_ida_VerifiedClaimsRequest)) [] (ddel kws (u "set_defaults"))) as [m' [[]|e]] eqn:E; [|discriminate].
  cbn [ret_msg] in H. injection H as <-.
  assert (Hn' : NoDup (map fst (ddel kws (u "set_defaults")))) by (apply ddel_nodup; exact Hn).
  apply (ShObject _ _ m'); [left; reflexivity|]. intros k s x Hk Hx.
  pose proof (from_items_get _ _ _ _ _ k Hn' E) as G.
  assert (Kd : dget (ddel kws (u "set_defaults")) k = dget kws k).
  { rewrite dget_ddel by exact Hn. cbn in Hk. destruct Hk as [Hk|[Hk|[]]]; injection Hk as <- <-; reflexivity. }
  rewrite Kd in G. destruct (dget kws k) as [v|] eqn:Ev.
  2: { rewrite G in Hx. discriminate. }
  pose proof (shaped_object _ _ kws (or_introl eq_refl) Hs k s v Hk Ev) as Sv.
  assert (Jv : json_value v). { inversion J as [| | | | |? ? Hj|]; subst. apply (Hj k). apply dget_In. exact Ev. }
  destruct (fd_entry the_lib (cd_param (cdef C_ida_VerifiedClaimsRequest)) k v) as [[y|]|e] eqn:Ee; rewrite G in Hx; try discriminate.
  injection Hx as <-. unfold fd_entry in Ee. destruct (is_blank v); [discriminate|].
  cbn in Hk. destruct Hk as [Hk|[Hk|[]]]; injection Hk as <- <-;
    match type of Ee with context [dget ?P ?k] => let r := eval vm_compute in (dget P k) in change (dget P k) with r in Ee end; cbv iota in Ee.
  - refine (read_shaped _ _ _ v y _ _ Jv Sv Ee); reflexivity.
  - refine (read_shaped _ _ _ v y _ _ Jv Sv Ee); reflexivity.
Qed.
Lemma construct_raises : forall kws e, dhas kws (u "self") = false -> construct (cdef C_ida_VerifiedClaimsRequest) kws = Err e ->
  anticipated e \/ e = OutOfModel.
Proof.
  intros kws e Hs H. unfold construct, construct_gen in H. rewrite Hs in H. cbv zeta in H.
  match type of H with ret_msg (from_items _ _ ?d ?l) = _ => pose proof (dict_exceptions C_ida_VerifiedClaimsRequest d l) as X;
    destruct (from_items the_lib (cd_param (cdef C_ida_VerifiedClaimsRequest)) d l) as [m [[]|e']] eqn:E; [discriminate|] end.
  cbn [ret_msg] in H. injection H as <-. unfold from_dict, from_dict_gen in X. cbn [items] in X. specialize (X m e' E).
  cbn [In] in X. unfold anticipated. cbn [In]. intuition auto 40.
Qed.

Lemma c166_requests : forall v c e, v <> VNone -> shaped (TMsg c) v -> verify_claims_request v c = Err e -> e = EValueError.
Proof. intros v c e Hn Hs. exact (shaped_fine v c Hn Hs e). Qed.
Lemma c166_verify : forall E K hdr d d' e,
  (forall c base, In (c, base) [(C_ida_VerificationElementRequest, C_ida_VerificationElement); (C_ida_VerifiedClaimsRequest, C_ida_VerifiedClaims)] ->
   shaped (TMsg base) (VDict d) -> verify E K hdr c d = (d', Err e) -> d' = d /\ (anticipated e \/ e = OutOfModel)).
Proof.
  intros E K hdr d d' e c base Hc Hs H.
  assert (G : verify E K hdr c d = (d, request_verify (cdef c) base d)) by (cbn [In] in Hc; destruct Hc as [X|[X|[]]]; injection X as <- <-; reflexivity).
  rewrite G in H. injection H as <- H. split; [reflexivity|]. exact (request_verify_raises c base d e Hs H).
Qed.
Lemma c166_claims : forall E K hdr d d' e,
  (forall vc, dget d (u "verified_claims") = Some vc -> truthy vc = true ->
     json_value vc /\ shaped (TMsg C_ida_VerifiedClaims) vc /\ forall kws, vc = VDict kws -> dget kws (u "self") = None) ->
  verify E K hdr C_ida_IDAClaimsRequest d = (d', Err e) -> d' = d /\ (anticipated e \/ e = OutOfModel).
Proof.
  intros E K hdr d d' e Hv H. change (verify E K hdr C_ida_IDAClaimsRequest d) with (ida_claims_verify (cdef C_ida_IDAClaimsRequest) d) in H.
  unfold ida_claims_verify in H. pose proof (base_raises (cdef C_ida_IDAClaimsRequest) d) as B.
  destruct (verify_base (cdef C_ida_IDAClaimsRequest) d) as [b|e0].
  2: { injection H as <- <-. split; [reflexivity|]. apply SA_anticipated, B. reflexivity. }
  cbv zeta in H. rewrite get_spec in H. destruct (dget d (u "verified_claims")) as [vc|]; [|discriminate].
  destruct (truthy vc) eqn:Et; [|discriminate]. destruct (Hv vc eq_refl Et) as (J & Hs & Hk).
  inversion Hs as [t' v' Hsm| | |c' v' l Hm Hd| |]; subst.
  { exfalso. destruct Hsm as [Hsm|[Hsm|Hsm]]; discriminate. }
  { discriminate Et. }
  2: { exfalso. match goal with X : cd_param _ = [] |- _ => discriminate X end. }
  destruct Hm as [->|[? ->]]; [|inversion J]. specialize (Hk l eq_refl).
  assert (Hh : dhas l (u "self") = false) by (unfold dhas; rewrite Hk; reflexivity).
  destruct (construct (cdef C_ida_VerifiedClaimsRequest) l) as [m|e0] eqn:Ec.
  2: { injection H as <- <-. split; [reflexivity|]. exact (construct_raises l e0 Hh Ec). }
  pose proof (read_request l m J Hs Ec) as Sm.
  destruct (request_verify (cdef C_ida_VerifiedClaimsRequest) C_ida_VerifiedClaims m) as [b'|e0] eqn:Er.
  2: { injection H as <- <-. split; [reflexivity|]. exact (request_verify_raises _ _ m e0 Sm Er). }
  exfalso. unfold setitem in H. match type of H with context [dget ?P ?k] => let r := eval vm_compute in (dget P k) in change (dget P k) with r in H end.
  discriminate H.
Qed.
