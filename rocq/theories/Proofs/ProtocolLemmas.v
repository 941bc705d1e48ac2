(** The tables of the library against those of the specifications (C132-C135). *)
From Coq Require Import List NArith ZArith Bool String Lia.
From Verif Require Import Base.Ustr Base.UstrLemmas Model.Cls Model.Value Model.Pspec Model.Tables Model.Message Model.Json Model.Env Model.Verify
  Spec.JsonSpec Spec.MessageSpec Spec.CodecSpec Spec.VerifySpec Spec.RoundTripSpec Spec.WireSpec Spec.RequiredSpec Spec.ProtocolSpec
  Proofs.ValueLemmas Proofs.MessageLemmas Proofs.EncodeLemmas Proofs.RoundTrip Proofs.TypeLemmas Proofs.WireLemmas Proofs.VerifyLemmas Proofs.ResponseLemmas Proofs.RaiseLemmas Proofs.AgainLemmas.
Import ListNotations.
Open Scope list_scope.
Open Scope N_scope.

(** ** Types *)
Definition no_ser (s : pspec) : bool := match p_ser s with None => true | _ => false end.
Definition no_deser (s : pspec) : bool := match p_deser s with None => true | _ => false end.
Definition listb (s : pspec) : bool :=
  match p_typ s, p_ser s, p_deser s with TList TStr, Some SerList, Some DeList => true | _, _, _ => false end.
Definition wordsb (s : pspec) : bool :=
  match p_typ s, p_ser s, p_deser s with TList TStr, Some SerSpSep, Some DeSpSep => true | _, _, _ => false end.
Definition fitsb (p : ptype) (s : pspec) : bool :=
  match p with
  | PText => match p_typ s with TStr => no_ser s && no_deser s | _ => false end
  | PToken => match p_typ s, p_ser s with TMsg C_Message, Some SerMsg => no_deser s | _, _ => false end
  | PInt => match p_typ s with TInt => no_ser s && no_deser s | _ => false end
  | PBool => match p_typ s with TBool => no_ser s && no_deser s | _ => false end
  | PTexts | PAudience => listb s
  | PWords => wordsb s
  | PObject => match p_typ s, p_ser s, p_deser s with
               | TDict, Some SerMsgJson, Some DeDict | TDict, Some SerJson, Some DeJson => true
               | _, _, _ => false
               end
  | PAddress => match p_typ s, p_ser s, p_deser s with
                | TMsg _, Some SerMsg, Some (DeOneOf C_oidc_AddressClaim) => true
                | _, _, _ => false
                end
  end.

Lemma listb_inv : forall s, listb s = true -> p_typ s = TList TStr /\ p_ser s = Some SerList /\ p_deser s = Some DeList.
Proof.
  intros s H. unfold listb in H. destruct (p_typ s) as [| | | | |[| | | | |]]; try discriminate.
  destruct (p_ser s) as [[]|]; try discriminate. destruct (p_deser s) as [[]|]; try discriminate. auto.
Qed.
Lemma wordsb_inv : forall s, wordsb s = true -> p_typ s = TList TStr /\ p_ser s = Some SerSpSep /\ p_deser s = Some DeSpSep.
Proof.
  intros s H. unfold wordsb in H. destruct (p_typ s) as [| | | | |[| | | | |]]; try discriminate.
  destruct (p_ser s) as [[]|]; try discriminate. destruct (p_deser s) as [[]|]; try discriminate. auto.
Qed.
Lemma no_ser_inv : forall s, no_ser s = true -> p_ser s = None.
Proof. intros s H. unfold no_ser in H. destruct (p_ser s); [discriminate|reflexivity]. Qed.
Lemma no_deser_inv : forall s, no_deser s = true -> p_deser s = None.
Proof. intros s H. unfold no_deser in H. destruct (p_deser s); [discriminate|reflexivity]. Qed.

Lemma address_spec : forall k, In k address_members -> param_spec (cd_param (cdef C_oidc_AddressClaim)) k = Some sp00.
Proof. intros k H. cbn [In address_members] in H. repeat (destruct H as [<-|H]; [vm_compute; reflexivity|]). destruct H. Qed.
Lemma address_scalars : forall k, In k address_members -> scalars k = true.
Proof. intros k H. cbn [In address_members] in H. repeat (destruct H as [<-|H]; [vm_compute; reflexivity|]). destruct H. Qed.

Lemma fits_tolerated : forall p s v w, fitsb p s = true -> spec_value p v w -> tolerated (Some s) v w.
Proof.
  intros p s v w F H. destruct H as [t Hc Hn|t Hc Hn|z|b|l Hl Hn Hb|l Hl Hf Hn Hb|t Hc Hn Hb|l Hl Hn Hb|d Hj|l Hd Hi Ht He]; cbn [fitsb] in F.
  - destruct (p_typ s) eqn:T; try discriminate. apply andb_prop in F. destruct F as [F1 F2]. apply TlWire, WrStr; auto using no_ser_inv.
  - destruct (p_typ s) as [| | | |c|] eqn:T; try discriminate. destruct c; try discriminate. destruct (p_ser s) as [[]|] eqn:S1; try discriminate.
    apply TlWire, WrToken; auto using no_deser_inv.
  - destruct (p_typ s) eqn:T; try discriminate. apply andb_prop in F. destruct F as [F1 F2]. apply TlWire, WrInt; auto using no_ser_inv.
  - destruct (p_typ s) eqn:T; try discriminate. apply andb_prop in F. destruct F as [F1 F2]. apply TlWire, WrBool; auto using no_ser_inv.
  - apply listb_inv in F. destruct F as (F1 & F2 & F3). apply TlWire, WrList; assumption.
  - apply wordsb_inv in F. destruct F as (F1 & F2 & F3). apply TlWire, WrWords; assumption.
  - apply listb_inv in F. destruct F as (F1 & F2 & F3). apply TlOne; assumption.
  - apply listb_inv in F. destruct F as (F1 & F2 & F3). apply TlWire, WrList; assumption.
  - destruct (p_typ s) eqn:T; try discriminate. destruct (p_ser s) as [[]|] eqn:S1; try discriminate; destruct (p_deser s) as [[]|] eqn:S2; try discriminate.
    + apply TlObject; assumption.
    + apply TlWire, WrObject; assumption.
  - destruct (p_typ s) as [| | | |c|] eqn:T; try discriminate. destruct (p_ser s) as [[]|] eqn:S1; try discriminate.
    destruct (p_deser s) as [[| | | | |c'| | | | | | |]|] eqn:S2; try discriminate. destruct c'; try discriminate.
    set (m := map (fun kv : ustr * ustr => (fst kv, VStr (snd kv), VStr (snd kv))) l : list member).
    assert (N : map name_of m = map fst l) by (unfold m; rewrite map_map; reflexivity).
    replace (map (fun kv : ustr * ustr => (fst kv, VStr (snd kv))) l) with (as_json m) at 1 by (unfold m, as_json; rewrite map_map; reflexivity).
    replace (map (fun kv : ustr * ustr => (fst kv, VStr (snd kv))) l) with (as_message m) by (unfold m, as_message; rewrite map_map; reflexivity).
    assert (M : forall k v w, In (k, v, w) m -> In k address_members /\ exists t, v = VStr t /\ w = VStr t /\ scalars t = true /\ t <> []).
    { intros k v w H. unfold m in H. apply in_map_iff in H. destruct H as ([k' t] & E & Hin). injection E as <- <- <-.
      split; [apply Hi, (in_map fst _ _ Hin)|]. exists t. repeat split.
      - apply Ht, (in_map snd _ _ Hin).
      - intro X. subst t. apply He, (in_map snd _ _ Hin). }
    apply TlWire, (WrMsg s C_oidc_AddressClaim m).
    + split; [exists c; exact T|]. split; [left; exact S1|]. right. right. left. exact S2.
    + reflexivity.
    + rewrite N. exact Hd.
    + intros k v w H. apply address_scalars, (M _ _ _ H).
    + intros k v w H. destruct (M _ _ _ H) as (Hk & t & -> & -> & Hs & Hne). rewrite (address_spec k Hk). apply WrStr; auto.
Qed.

Definition entry_ok (c : cls) (kp : ustr * ptype) : bool :=
  scalars (fst kp) && match param_spec (cd_param (cdef c)) (fst kp) with Some s => fitsb (snd kp) s | None => false end.
Lemma spec_types_ok : forallb (fun cp => forallb (entry_ok (fst cp)) (snd cp)) spec_types = true.
Proof. vm_compute. reflexivity. Qed.
Lemma spec_type_fits : forall c ps k p, In (c, ps) spec_types -> In (k, p) ps ->
  scalars k = true /\ exists s, param_spec (cd_param (cdef c)) k = Some s /\ fitsb p s = true.
Proof.
  intros c ps k p Hc Hk. pose proof spec_types_ok as H. rewrite forallb_forall in H. specialize (H _ Hc). cbn [fst snd] in H.
  rewrite forallb_forall in H. specialize (H _ Hk). unfold entry_ok in H. cbn [fst snd] in H. apply andb_prop in H. destruct H as [H1 H2].
  split; [exact H1|]. destruct (param_spec (cd_param (cdef c)) k) as [s|]; [exists s; auto|discriminate].
Qed.

Lemma spec_tolerated : forall c ps l, In (c, ps) spec_types -> spec_document ps l -> document tolerated (cd_param (cdef c)) l.
Proof.
  intros c ps l Hc [H1 H2]. split; [exact H1|]. intros k v w H. destruct (H2 _ _ _ H) as (p & Hp & Hv).
  destruct (spec_type_fits c ps k p Hc Hp) as (Hs & s & E & F). split; [exact Hs|]. rewrite E. exact (fits_tolerated p s v w F Hv).
Qed.

(** C132 *)
Lemma c132_read : forall c ps l t, In (c, ps) spec_types -> spec_document ps l -> json_loads t = Ok (VDict (as_json l)) ->
  exists d, from_json (cdef c) (cd_default (cdef c)) t = (d, Ok tt) /\
    (forall k v w, In (k, v, w) l -> dget d k = Some w) /\
    forall k, ~ In k (map name_of l) -> dget d k = dget (cd_default (cdef c)) k.
Proof.
  intros c ps l t Hc Hl Ht. exists (dupdate (cd_default (cdef c)) (as_message l)).
  pose proof (spec_tolerated c ps l Hc Hl) as D. destruct Hl as [N _].
  assert (N' : NoDup (map fst (as_message l))) by (rewrite names_message; exact N).
  split; [|split].
  - unfold from_json. cbn [from_json_gen]. rewrite Ht. exact (document_read _ l D).
  - intros k v w H. rewrite dget_dupdate by exact N'. rewrite (In_dget _ k w N'); [reflexivity|]. apply in_message. exists v. exact H.
  - intros k H. rewrite dget_dupdate by exact N'. rewrite (proj2 (dget_None _ _)); [reflexivity|]. rewrite names_message. exact H.
Qed.

Lemma c132_typed : forall c ps k p l v, In (c, ps) spec_types -> In (k, p) ps -> no_dict_for_list (cd_param (cdef c)) l ->
  dget (fst (from_dict (cdef c) (cd_default (cdef c)) (VDict l))) k = Some v -> v = VNone \/ typed_value p v.
Proof.
  intros c ps k p l v Hc Hk Hl Hv. destruct (spec_type_fits c ps k p Hc Hk) as (_ & s & E & F).
  pose proof (c05_from_dict (cdef c) (cd_default (cdef c)) l (lib_defaults_typed c) Hl) as W.
  assert (D : v = VNone \/ v <> VNone) by (destruct v; auto; right; discriminate). destruct D as [D|D]; [left; exact D|right].
  assert (L : forall x, has_type (TList TStr) x -> exists l, x = VList (map VStr l)).
  { intros x X. inversion X as [| | |l' Hl']. subst x. clear X. exists (map (fun x => match x with VStr t => t | _ => [] end) l'). f_equal.
    rewrite map_map. induction l' as [|y l' IH]; [reflexivity|]. cbn [map]. rewrite <- IH by (intros z Hz; apply Hl'; right; exact Hz).
    destruct (Hl' y (or_introl eq_refl)) as [t ->]. reflexivity. }
  specialize (W k s v E).
  destruct p; cbn [typed_value]; try exact I; cbn [fitsb] in F;
    try (apply listb_inv in F || apply wordsb_inv in F; destruct F as (F1 & F2 & F3); apply L; rewrite <- F1; apply W;
         [right; split; [exact F1|]; rewrite F3; auto|exact Hv|exact D]);
    (destruct (p_typ s) eqn:T; try discriminate; apply andb_prop in F; destruct F as [F1 F2];
     assert (X : has_type (p_typ s) v) by (rewrite T; apply W; [left; split; [tauto|apply no_deser_inv, F2]|exact Hv|exact D]);
     rewrite T in X; inversion X; eauto).
Qed.

Lemma c132_refused : forall c k p v w d, In (c, (k, p)) spec_types_refused -> spec_value p v w ->
  from_dict (cdef c) d (VDict [(k, v)]) = (d, Err EValueError).
Proof.
  intros c k p v w d H Hv. cbn [In spec_types_refused] in H. destruct H as [H|[H|[]]]; injection H as <- <- <-; inversion Hv; subst; clear Hv.
  - reflexivity.
  - destruct l as [|x [|y l]]; [congruence| |]; unfold from_dict, from_dict_gen; cbn [items from_items]; rewrite fd_entry_spec;
      cbn [map]; (replace (is_blank _) with false; [reflexivity|]); symmetry; apply is_blank_false; intros [X|X]; try discriminate X; injection X as X; subst; match goal with H : [[]] <> [[]] |- _ => apply H; reflexivity end.
Qed.

Lemma c132_untyped : forall c k p v, In (c, (k, p)) spec_types_untyped -> ~ blank v ->
  from_dict (cdef c) [] (VDict [(k, v)]) = ([(k, v)], Ok tt).
Proof.
  intros c k p v H Hv. apply is_blank_false in Hv. cbn [In spec_types_untyped] in H.
  repeat (destruct H as [H|H]; [injection H as <- <- <-; unfold from_dict, from_dict_gen; cbn [items from_items]; unfold fd_entry; rewrite Hv;
    destruct v; reflexivity|]). destruct H.
Qed.

(** ** Values *)
Definition choice_ok (c : cls) (kal : ustr * list value) : bool :=
  existsb (fun e => (if cls_eq_dec (fst e) c then true else false) && ueqb (fst (fst (snd e))) (fst kal) &&
    forallb (fun t => existsb (fun y => py_eq y (VStr t)) (snd kal)) (snd (snd e)) &&
    forallb (fun ks => negb (ueqb (fst ks) (fst kal)) ||
      match snd (fst (snd e)), p_typ (snd ks) with PText, TStr => true | PWords, TList _ => true | _, _ => false end) (cd_param (cdef c)))
    spec_values.
Definition choices_ok (c : cls) : bool := forallb (choice_ok c) (cd_allowed (cdef c)).

Lemma choices_allowed : forall c d a, choices_ok c = true -> spec_choices c d -> ~ not_allowed (cdef c) d a.
Proof.
  intros c d a Hc Hd (s & v & al & Hs & _ & Hv & _ & Hal & Hn). apply Hn. clear Hn.
  unfold choices_ok in Hc. rewrite forallb_forall in Hc. apply dget_In in Hal. specialize (Hc _ Hal). unfold choice_ok in Hc.
  cbn [fst snd] in Hc. apply existsb_exists in Hc. destruct Hc as ([c' [[k p] vs]] & Hin & H). cbn [fst snd] in H.
  destruct (cls_eq_dec c' c) as [->|]; [|discriminate]. cbn [andb] in H.
  apply andb_prop in H. destruct H as [H H2]. apply andb_prop in H. destruct H as [H0 H1]. apply ueqb_eq in H0. subst k.
  rewrite forallb_forall in H1, H2. specialize (H2 _ Hs). cbn [fst snd] in H2. rewrite ueqb_refl in H2. cbn [negb orb] in H2.
  assert (M : forall t, In t vs -> exists y, In y al /\ py_eq y (VStr t) = true) by (intros t Ht; apply existsb_exists, H1, Ht).
  specialize (Hd _ _ _ _ Hin Hv). unfold allowed_value.
  destruct p; try discriminate H2; cbn [spec_choice] in Hd.
  - destruct (p_typ s); try discriminate H2. destruct Hd as (t & -> & Ht). exact (M t Ht).
  - destruct (p_typ s); try discriminate H2. destruct Hd as (l & -> & Hl). intros l' E x Hx. injection E as <-.
    apply in_map_iff in Hx. destruct Hx as (t & <- & Ht). apply M, Hl, Ht.
Qed.

Definition nn {A} (r : res A) : Prop := r <> Err ENotAllowedValue.
Lemma nn_ok : forall A (x : A), nn (Ok x). Proof. discriminate. Qed.
Lemma nn_bind : forall A B (r : res A) (f : A -> res B), nn r -> (forall x, nn (f x)) -> nn (bind r f).
Proof. intros A B [x|e] f H H1; cbn [bind]; [apply H1|]. intros E. apply H. congruence. Qed.
Lemma nn_in : forall x c, nn (py_in x c).
Proof. intros x c. destruct c; cbn [py_in]; try discriminate; destruct x; try discriminate; destruct hashable; discriminate. Qed.
Lemma nn_len : forall v, nn (py_len v).
Proof. intros v. destruct v; discriminate. Qed.
Lemma nn_raise : forall b e, e <> ENotAllowedValue -> nn (raise_if b e).
Proof. intros b e H. destruct b; cbn [raise_if]; [intros X; congruence|discriminate]. Qed.
Lemma nn_iter : forall v, nn (py_iter v).
Proof. intros v. destruct v; discriminate. Qed.
Lemma nn_chars : forall l, nn (all_error_chars l).
Proof.
  induction l as [|v l IH]; cbn [all_error_chars]; [discriminate|]. repeat (apply nn_bind; [|intros]); try exact IH.
  all: repeat match goal with |- nn (match ?x with _ => _ end) => destruct x end; discriminate || exact IH.
Qed.

Lemma nn_base : forall c d, choices_ok c = true -> spec_choices c d -> nn (verify_base (cdef c) d).
Proof.
  intros c d Hc Hd E. apply verify_base_err in E. destruct E as [[E _]|[_ [a Ha]]]; [discriminate|exact (choices_allowed c d a Hc Hd Ha)].
Qed.

Lemma nn_response : forall c d, choices_ok c = true -> spec_choices c d -> nn (response_verify (cdef c) d).
Proof.
  intros c d Hc Hd. unfold response_verify. apply nn_bind; [apply nn_base; assumption|]. intros _.
  destruct (dget d (u "error_description")) as [v|]; [|discriminate]. apply nn_bind; [apply nn_iter|]. intros xs.
  apply nn_bind; [apply nn_chars|]. intros b. destruct b; discriminate.
Qed.

Lemma nn_rules : forall K d, nn (request_rules K d).
Proof.
  intros K d. unfold request_rules. destruct (dget d (u "response_type")) as [rt|]; [|discriminate].
  cbv zeta.
  repeat (apply nn_bind; [|intros]);
    repeat (apply nn_in || apply nn_len || (apply nn_raise; discriminate) || discriminate
            || (apply nn_bind; [|intros]) || match goal with |- nn (match ?x with _ => _ end) => destruct x end).
Qed.

Definition values_kind (k : vkind) : bool :=
  match k with KBase | KResponse | KOidcAuthzRequest | KRegistration | KDevice => true | _ => false end.
Lemma spec_values_ok : forallb (fun c => choices_ok c && values_kind (vkind_of c)) (map fst spec_values) = true.
Proof. vm_compute. reflexivity. Qed.


Lemma nn_andthen : forall A B C (r : A * res B) (f : A -> B -> A * res C), nn (snd r) -> (forall a b, nn (snd (f a b))) -> nn (snd (andthen r f)).
Proof. intros A B C [a [b|e]] f H H1; cbn [andthen]; [apply H1|]. cbn [snd] in *. intros X. apply H. congruence. Qed.
Lemma nn_checked : forall A (r : res A) d f, nn r -> (forall d, nn (snd (f d))) -> nn (snd (checked r d f)).
Proof. intros A [x|e] d f H H1; cbn [checked]; [apply H1|]. cbn [snd]. intros X. apply H. congruence. Qed.
Lemma nn_enc : forall p d, In (p ++ u "_enc") [u "request_object_encryption_enc"; u "id_token_encrypted_response_enc"; u "userinfo_encrypted_response_enc"] ->
  nn (snd (enc_default (cdef C_oidc_RegistrationRequest) p d)).
Proof.
  intros p d H. unfold enc_default. cbv zeta.
  assert (X : forall d1 : dict value, nn (snd (if dhas d1 (p ++ u "_enc") && negb (dhas d1 (p ++ u "_alg")) then (d1, Err EMissingRequiredAttribute) else (d1, @Ok unit tt)))).
  { intro d1. destruct (dhas d1 (p ++ u "_enc") && negb (dhas d1 (p ++ u "_alg"))); discriminate. }
  destruct (dhas d (p ++ u "_alg") && negb (dhas d (p ++ u "_enc"))); [rewrite enc_set by exact H|]; cbn [andthen]; apply X.
Qed.
Lemma nn_registration : forall d, choices_ok C_oidc_RegistrationRequest = true -> spec_choices C_oidc_RegistrationRequest d ->
  nn (snd (registration_verify (cdef C_oidc_RegistrationRequest) d)).
Proof.
  intros d Hc Hd. unfold registration_verify. apply nn_checked; [apply nn_base; assumption|]. intros d1.
  apply nn_checked; [destruct (dget d1 (u "initiate_login_uri")) as [v|]; [|discriminate]; destruct v; try discriminate; apply nn_raise; discriminate|].
  intros d2. repeat (apply nn_andthen; [apply nn_enc; vm_compute; tauto|intros]). cbn [snd].
  destruct (dget _ (u "token_endpoint_auth_signing_alg")) as [v|]; [|discriminate]. destruct (py_eq v (VStr (u "none"))); discriminate.
Qed.

Lemma nn_request : forall E K c d, choices_ok c = true -> spec_choices c d -> without_tokens d ->
  nn (snd (oidc_authz_request_verify E K (cdef c) d)).
Proof.
  intros E K c d Hc Hd [T1 T2]. unfold oidc_authz_request_verify.
  pose proof (nn_base c d Hc Hd) as B. unfold nn in B. unfold checked. destruct (verify_base (cdef c) d) as [b|e]; [|cbn [snd]; intros X; apply B; congruence].
  cbv zeta. destruct (authz_args K (clear_verified d)) as [args|e] eqn:Ea.
  - assert (R1 : dget (clear_verified d) (u "request") = None) by (unfold clear_verified; rewrite !dget_ddel; exact T1).
    assert (R2 : dget (clear_verified d) (u "id_token_hint") = None) by (unfold clear_verified; rewrite !dget_ddel; exact T2).
    unfold request_step. rewrite R1. cbn [andthen]. unfold hint_step. rewrite R2. cbn [andthen snd]. apply nn_rules.
  - cbn [snd]. intros X. injection X as ->. unfold authz_args in Ea. destruct (khas K (u "opponent_id")); [discriminate|].
    destruct (dget (clear_verified d) (u "client_id")); discriminate.
Qed.

Lemma registration_kind : forall c, vkind_of c = KRegistration -> c = C_oidc_RegistrationRequest.
Proof. intros c H. destruct c; try reflexivity; vm_compute in H; discriminate. Qed.

(** C133 *)
Lemma c133 : forall E K hdr c d, In c (map fst spec_values) -> spec_choices c d -> without_tokens d ->
  snd (verify E K hdr c d) <> Err ENotAllowedValue.
Proof.
  intros E K hdr c d Hc Hd Ht. pose proof spec_values_ok as H. rewrite forallb_forall in H. specialize (H c Hc).
  apply andb_prop in H. destruct H as [H1 H2]. unfold verify. cbv zeta. change (nn (snd (match vkind_of c with
  | KBase => pure (verify_base (cdef c)) d
  | KResponse => pure (response_verify (cdef c)) d
  | KAuthzResponse => pure (authz_response_verify K (cdef c)) d
  | KJar => jar_verify E K (cdef c) d
  | KPar => par_verify E K (cdef c) d
  | KTokenResponse => oidc_token_response_verify E K (cdef c) d
  | KOidcAuthzResponse => oidc_authz_response_verify E K (cdef c) d
  | KOidcAuthzRequest => oidc_authz_request_verify E K (cdef c) d
  | KSchema => pure (schema_verify (cdef c)) d
  | KRegistration => registration_verify (cdef c) d
  | KRegistrationResponse => pure (registration_response_verify (cdef c)) d
  | KIdToken => pure (idtoken_verify E K (cdef c)) d
  | KWithIdToken => mwit_verify (mwit_super c) E K (cdef c) d
  | KProvider => pure (provider_verify E K (cdef c)) d
  | KJwt => pure (jwt_verify E K (cdef c)) d
  | KEndSession => end_session_verify E K (cdef c) d
  | KLogoutToken => pure (logout_token_verify E K (cdef c) hdr) d
  | KBackChannel => backchannel_verify E K (cdef c) d
  | KEvidence => evidence_verify 1000 c d
  | KVerificationRequest => pure (request_verify (cdef c) C_ida_VerificationElement) d
  | KVerifiedClaimsRequest => pure (request_verify (cdef c) C_ida_VerifiedClaims) d
  | KIdaClaims => ida_claims_verify (cdef c) d
  | KDevice => pure (device_verify (cdef c)) d
  end))).
  destruct (vkind_of c) eqn:Ek; try discriminate H2; unfold pure; cbn [snd].
  - apply nn_base; assumption.
  - apply nn_response; assumption.
  - apply nn_request; assumption.
  - rewrite (registration_kind c Ek) in *. apply nn_registration; assumption.
  - unfold device_verify. apply nn_bind; [apply nn_base; assumption|]. intros _. apply nn_bind; [|discriminate].
    destruct (dhas d (u "device_code")); [|discriminate]. apply nn_bind; [|intros _]; apply nn_raise; discriminate.
Qed.
Lemma c133_more : forall E K hdr c k t, In (c, (k, t)) spec_values_more ->
  verify E K hdr c [(k, VStr t)] = ([(k, VStr t)], Err ENotAllowedValue).
Proof.
  intros E K hdr c k t H. cbn [In spec_values_more] in H.
  repeat (destruct H as [H|H]; [injection H as <- <- <-; vm_compute; reflexivity|]). destruct H.
Qed.

(** C134 *)
Definition demands_ok (cl : cls * list ustr) : bool :=
  choices_ok (fst cl) && match vkind_of (fst cl) with KBase => true | KResponse => subclass (fst cl) C_oauth2_ResponseMessage | _ => false end &&
  forallb (fun ks => negb (p_req (snd ks)) || (existsb (ueqb (fst ks)) (snd cl) &&
     (negb (ueqb (fst ks) (u "active")) || match p_typ (snd ks) with TBool => true | _ => false end))) (cd_param (cdef (fst cl))).
Lemma spec_demands_ok : forallb demands_ok spec_demands = true.
Proof. vm_compute. reflexivity. Qed.
Lemma c134 : forall E K hdr c l d, In (c, l) spec_demands -> (forall a, In a l -> has_parameter d a) -> spec_choices c d ->
  (forall v, subclass c C_oauth2_ResponseMessage = true -> dget d (u "error_description") = Some v -> desc_ok v) ->
  verify E K hdr c d = (d, Ok true).
Proof.
  intros E K hdr c l d Hc Hl Hd He. pose proof spec_demands_ok as H. rewrite forallb_forall in H. specialize (H _ Hc). unfold demands_ok in H.
  cbn [fst snd] in H. apply andb_prop in H. destruct H as [H H3]. apply andb_prop in H. destruct H as [H1 H2].
  assert (T : table_ok (cdef c) d).
  { split; [|intros a; apply choices_allowed; assumption]. intros a (s & Hs & _ & Hr & Hn). rewrite forallb_forall in H3. specialize (H3 _ Hs).
    cbn [fst snd] in H3. rewrite Hr in H3. cbn [negb orb] in H3. apply andb_prop in H3. destruct H3 as [H4 H5].
    apply existsb_exists in H4. destruct H4 as (a' & Ha & Ea). apply ueqb_eq in Ea. subst a'. destruct (Hl a Ha) as (v & Hv & Hg).
    apply Hn. exists v. split; [exact Hv|]. apply orb_prop in H5. destruct H5 as [H5|H5].
    - right. apply Hg. intros ->. rewrite ueqb_refl in H5. discriminate.
    - left. destruct (p_typ s); try discriminate H5. reflexivity. }
  unfold verify. cbv zeta. destruct (vkind_of c); try discriminate H2; unfold pure; f_equal.
  - apply verify_base_true. auto.
  - apply response_verify_ok. split; [|reflexivity]. split; [exact T|]. intros v Hv. apply He; assumption.
Qed.
Lemma c134_more : forall E K hdr c k d, In (c, k) demanded_more -> dget d k = None -> snd (verify E K hdr c d) <> Ok true.
Proof.
  intros E K hdr c k d H Hk. assert (T : ~ table_ok (cdef c) d).
  { intros [T _]. apply (T k). unfold missing. cbn [In demanded_more] in H.
    destruct H as [H|[H|[H|[]]]]; injection H as <- <-;
      (eexists; split; [apply dget_In; vm_compute; reflexivity|split; [discriminate|split; [reflexivity|intros (v & Hv & _); congruence]]]). }
  cbn [In demanded_more] in H. destruct H as [H|[H|[H|[]]]]; injection H as <- <-; unfold verify, pure; cbn [vkind_of snd]; intros X; apply T.
  all: first [apply verify_base_true in X; tauto|apply response_verify_ok in X; destruct X as [[X _] _]; exact X].
Qed.

(** C135 *)
Lemma defaults_ok : forall c k v, In (k, v) (cd_default (cdef c)) -> In (c, (k, v)) (spec_defaults ++ other_defaults).
Proof.
  intros c k v H. destruct c; cbn [cdef cd_default In] in H;
    repeat (destruct H as [H|H]; [injection H as <- <-; cbv [spec_defaults other_defaults app In]; tauto|]); destruct H.
Qed.
Lemma c135_only : forall c l d k v, NoDup (map fst l) -> from_dict (cdef c) (cd_default (cdef c)) (VDict l) = (d, Ok tt) -> ~ In k (map fst l) ->
  dget d k = Some v -> In (c, (k, v)) spec_defaults \/ In (c, (k, v)) other_defaults.
Proof.
  intros c l d k v Hn H Hk Hv. destruct (c09 (cdef c) _ l d Hn H k) as [_ G]. rewrite (G Hk) in Hv. apply dget_In in Hv.
  apply in_app_or, defaults_ok, Hv.
Qed.
Lemma defaults_there : forall c k v, In (c, (k, v)) (spec_defaults ++ other_defaults) -> dget (cd_default (cdef c)) k = Some v.
Proof.
  intros c k v H. cbv [spec_defaults other_defaults app In] in H.
  repeat (destruct H as [H|H]; [injection H as <- <- <-; vm_compute; reflexivity|]). destruct H.
Qed.
Lemma c135_filled : forall c l d k v, In (c, (k, v)) spec_defaults \/ In (c, (k, v)) other_defaults -> NoDup (map fst l) ->
  from_dict (cdef c) (cd_default (cdef c)) (VDict l) = (d, Ok tt) -> ~ In k (map fst l) -> dget d k = Some v.
Proof.
  intros c l d k v Hd Hn H Hk. destruct (c09 (cdef c) _ l d Hn H k) as [_ G]. rewrite (G Hk).
  apply defaults_there, in_or_app, Hd.
Qed.
Lemma c135_more : forall c l d k v, In (c, (k, v)) spec_defaults_more -> NoDup (map fst l) ->
  from_dict (cdef c) (cd_default (cdef c)) (VDict l) = (d, Ok tt) -> ~ In k (map fst l) -> dget d k <> Some v.
Proof.
  intros c l d k v Hd Hn H Hk. destruct (c09 (cdef c) _ l d Hn H k) as [_ G]. rewrite (G Hk). clear - Hd.
  cbn [In spec_defaults_more] in Hd.
  repeat (destruct Hd as [Hd|Hd]; [injection Hd as <- <- <-; vm_compute; discriminate|]). destruct Hd.
Qed.
