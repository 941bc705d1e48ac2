(** The classes of exceptions. *)
From Coq Require Import List NArith ZArith Bool String Lia.
From Verif Require Import Base.Ustr Base.UstrLemmas Model.Cls Model.Value Model.Pspec Model.Tables Model.Exceptions Model.Json Model.Message Model.Env Model.Verify
  Spec.MessageSpec Spec.VerifySpec Spec.ErrorSpec Spec.RaiseSpec Spec.TokenErrorSpec Spec.RequestErrorSpec Spec.ExceptionSpec
  Proofs.ValueLemmas Proofs.Deciders Proofs.MessageLemmas Proofs.ErrorLemmas Proofs.RaiseLemmas Proofs.TokenErrorLemmas Proofs.RequestErrorLemmas.
Import ListNotations.
Open Scope list_scope.

Lemma bases_nodup : NoDup (map fst exception_bases).
Proof. apply nodupb_ok. vm_compute. reflexivity. Qed.
Lemma walk_sound : forall n b c, catches_class n b c = true -> derived c b.
Proof.
  induction n as [|n IH]; intros b c H; cbn [catches_class] in H; apply orb_prop in H; destruct H as [H|H].
  - apply ueqb_eq in H. subst. apply DvSame.
  - discriminate.
  - apply ueqb_eq in H. subst. apply DvSame.
  - destruct (dget exception_bases c) as [c'|] eqn:E; [|discriminate]. apply (DvStep c c' b); [apply dget_In; exact E|exact (IH b c' H)].
Qed.
Lemma catches_refl : forall n c, catches_class n c c = true.
Proof. intros [|n] c; cbn [catches_class]; rewrite ueqb_refl; reflexivity. Qed.
Lemma catches_up : forall n b c, catches_class n b c = true -> catches_class (S n) b c = true.
Proof.
  induction n as [|n IH]; intros b c H; cbn [catches_class] in H; apply orb_prop in H; destruct H as [H|H].
  - cbn [catches_class]. rewrite H. reflexivity.
  - discriminate.
  - cbn [catches_class]. rewrite H. reflexivity.
  - destruct (dget exception_bases c) as [c'|] eqn:E; [|discriminate]. pose proof (IH b c' H) as G. cbn [catches_class] in G |- *. rewrite E, G. apply orb_true_r.
Qed.
Lemma walk_complete : forall c b, derived c b -> exists n, catches_class n b c = true.
Proof.
  intros c b H. induction H as [c|c c' b H _ [n IH]]; [exists O; apply catches_refl|]. exists (S n). cbn [catches_class].
  rewrite (In_dget _ _ _ bases_nodup H), IH. apply orb_true_r.
Qed.
(** five steps lead to the top from every class *)
Fixpoint top (n : nat) (c : ustr) : bool :=
  match dget exception_bases c with None => true | Some b => match n with O => false | S n => top n b end end.
Lemma all_top : forallb (fun e : ustr * ustr => top 5 (fst e)) exception_bases = true.
Proof. vm_compute. reflexivity. Qed.
Lemma top_enough : forall n m b c, top n c = true -> catches_class m b c = true -> catches_class n b c = true.
Proof.
  induction n as [|n IH]; intros m b c T H; destruct m as [|m]; cbn [catches_class] in H; apply orb_prop in H; destruct H as [H|H];
    try discriminate; try (cbn [catches_class]; rewrite H; reflexivity); cbn [top] in T.
  - destruct (dget exception_bases c); discriminate.
  - cbn [catches_class]. destruct (dget exception_bases c) as [c'|] eqn:E; [|discriminate]. rewrite (IH m b c' T H). apply orb_true_r.
Qed.
Lemma more : forall n k b c, catches_class n b c = true -> catches_class (k + n) b c = true.
Proof. intros n k b c H. induction k as [|k IH]; [exact H|]. cbn [Nat.add]. apply catches_up, IH. Qed.
Lemma walk_enough : forall m b c, catches_class m b c = true -> catches_class 60 b c = true.
Proof.
  intros m b c H. change 60%nat with (55 + 5)%nat. apply more. apply (top_enough 5 m); [|exact H].
  destruct (dget exception_bases c) as [c'|] eqn:E; [|cbn [top]; rewrite E; reflexivity].
  pose proof all_top as A. rewrite forallb_forall in A. apply dget_In in E. exact (A _ E).
Qed.
Lemma catches_exact : forall names e, catches names e = true <-> instance e names.
Proof.
  intros names e. unfold catches, instance. destruct (exn_class e) as [c|]; [|split; [discriminate|intros (c & b & X & _); discriminate]].
  rewrite existsb_exists. split.
  - intros (b & Hb & H). exists c, b. split; [reflexivity|]. split; [exact Hb|exact (walk_sound _ _ _ H)].
  - intros (c' & b & X & Hb & H). injection X as <-. exists b. split; [exact Hb|]. destruct (walk_complete c b H) as [n Hn]. exact (walk_enough n b c Hn).
Qed.
Lemma caught : forall names e, catches names e = true -> instance e names.
Proof. intros names e H. apply catches_exact. exact H. Qed.

Definition apart : list ustr := [u "UnSupported"; u "InvalidRedirectUri"; u "MissingPage"; u "ModificationForbidden"].
Lemma library_classes : forall c b, In (c, b) (exception_py ++ oidc_exceptions) ->
  ~ In c [u "UnSupported"; u "InvalidRedirectUri"; u "MissingPage"; u "ModificationForbidden"] -> derived c (u "OidcMsgError").
Proof.
  intros c b H N. apply (walk_sound 60).
  assert (A : forallb (fun e : ustr * ustr => umem (fst e) apart || catches_class 60 (u "OidcMsgError") (fst e)) (exception_py ++ oidc_exceptions) = true) by (vm_compute; reflexivity).
  rewrite forallb_forall in A. specialize (A _ H). cbn [fst] in A. apply orb_prop in A. destruct A as [A|A]; [|exact A].
  apply umem_In in A. contradiction.
Qed.
Lemma not_derived : forall c b, catches_class 60 b c = false -> ~ derived c b.
Proof. intros c b H D. destruct (walk_complete c b D) as [n Hn]. apply walk_enough in Hn. congruence. Qed.
Lemma library_apart : forall c, In c [u "UnSupported"; u "InvalidRedirectUri"; u "MissingPage"; u "ModificationForbidden"] ->
  In (c, u "Exception") exception_py /\ ~ derived c (u "OidcMsgError").
Proof.
  intros c H. cbn [In] in H. repeat (destruct H as [<-|H]; [split; [vm_compute; tauto|apply not_derived; vm_compute; reflexivity]|]). destruct H.
Qed.

Lemma anticipated_caught : forall e, anticipated e -> instance e [u "OidcMsgError"; u "ValueError"].
Proof. intros e H. apply caught. unfold anticipated in H. cbn [In] in H. repeat (destruct H as [<-|H]; [vm_compute; reflexivity|]). destruct H. Qed.
Lemma base_message : forall c d e, verify_base (cdef c) d = Err e -> instance e [u "MessageException"].
Proof.
  intros c d e H. apply caught.
  assert (W : within [EMissingRequiredAttribute; ENotAllowedValue] (verify_base (cdef c) d)).
  { unfold verify_base. apply within_bind; [|intros; apply within_ok]. apply within_mapM. intros [k s] _. cbn [fst snd].
    unfold verify_param. destruct (ueqb k (u "*")); [apply within_ok|]. destruct (dget d k) as [v|]; [|destruct (p_req s); [apply within_err; cbn; tauto|apply within_ok]].
    destruct (match p_typ s with TBool => false | _ => negb (truthy v) end); [destruct (p_req s); [apply within_err; cbn; tauto|apply within_ok]|].
    destruct (dget (cd_allowed (cdef c)) k); [|apply within_ok]. destruct (type_check _ _ _ _); [apply within_ok|apply within_err; cbn; tauto]. }
  specialize (W e H). cbn [In] in W. destruct W as [<-|[<-|[]]]; vm_compute; reflexivity.
Qed.
Lemma c167_verify : forall E K hdr c d d' e, assurance c = false -> usual_args K -> as_expected c d -> openid_supported c d -> tokenless d ->
  verify E K hdr c d = (d', Err e) -> instance e [u "OidcMsgError"; u "ValueError"] \/ e = OutOfModel.
Proof. intros E K hdr c d d' e H1 H2 H3 H4 H5 H. destruct (c129 E K hdr c d d' e H1 H2 H3 H4 H5 H) as [A|A]; [left; apply anticipated_caught, A|right; exact A]. Qed.
Lemma c167_request : forall E K hdr c q d t d' e, subclass c C_oidc_AuthorizationRequest = true -> kw_jar K = true ->
  from_urlencoded (cdef c) (cd_default (cdef c)) q = (d, Ok tt) -> dget d (u "request") = Some (VStr t) -> request_readable E t ->
  verify E K hdr c d = (d', Err e) -> instance e [u "OidcMsgError"; u "ValueError"] \/ from_crypto E e \/ e = OutOfModel.
Proof.
  intros E K hdr c q d t d' e H1 H2 H3 H4 H5 H. destruct (c164_query E K hdr c q d t d' e H1 H2 H3 H4 H5 H) as [A|[A|A]];
    [left; apply anticipated_caught, A|right; left; exact A|right; right; exact A].
Qed.
Lemma c167_read : forall c d l d' e, from_dict (cdef c) d (VDict l) = (d', Err e) -> instance e [u "OidcMsgError"; u "ValueError"] \/ e = OutOfModel.
Proof.
  intros c d l d' e H. pose proof (dict_exceptions c d l d' e H) as G. cbn [In] in G.
  destruct G as [<-|[<-|[<-|[]]]]; [left|left|right; reflexivity]; apply caught; vm_compute; reflexivity.
Qed.
Lemma not_message : ~ instance EVerificationError [u "MessageException"] /\ ~ instance EIssuerMismatch [u "MessageException"; u "VerificationError"; u "ValueError"] /\
  ~ instance ETypeError [u "OidcMsgError"; u "ValueError"].
Proof. repeat split; intro H; apply catches_exact in H; vm_compute in H; discriminate. Qed.
