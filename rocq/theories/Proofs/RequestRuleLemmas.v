(** Rules of OpenID Connect Core 6 and RFC 9101 for request objects. *)
From Coq Require Import List NArith ZArith Bool String.
From Verif Require Import Base.Ustr Base.UstrLemmas Model.Cls Model.Value Model.Pspec Model.Tables Model.Json Model.Message Model.Env Model.Verify
  Spec.MessageSpec Spec.VerifySpec Spec.ClockSpec Spec.RequestRuleSpec
  Proofs.ValueLemmas Proofs.VerifyLemmas Proofs.TokenLemmas Proofs.IdTokenLemmas Proofs.ResponseLemmas Proofs.ArgumentLemmas Proofs.Samples.
Import ListNotations.
Open Scope list_scope.
Open Scope N_scope.

Lemma request_args_opponent : forall K, dget (request_args K) (u "opponent_id") = kget K (u "opponent_id").
Proof. intro K. unfold request_args. rewrite pick_dget. reflexivity. Qed.

Lemma object_keys : forall E K hdr c d d' t tok, subclass c C_oidc_AuthorizationRequest = true ->
  verify E K hdr c d = (d', Ok true) -> dget d (u "request") = Some (VStr t) ->
  not_encrypted E t -> e_jws E (VStr t) = Ok (Some tok) -> signed_tok tok ->
  exists args, verified_with E args t tok /\
    dget args (u "opponent_id") = match kget K (u "opponent_id") with Some v => Some v | None => dget d (u "client_id") end.
Proof.
  intros E K hdr c d d' t tok Hc H Ht Hn Hj Hs. unfold verify in H. rewrite (oidc_request_kind c Hc) in H.
  unfold oidc_authz_request_verify in H. apply checked_true in H. destruct H as [a [Ha H]].
  destruct (authz_args K (clear_verified d)) as [args|e] eqn:Ea; [|congruence].
  destruct (request_step E K (cdef c) args (clear_verified d)) as [d2 [[]|e]] eqn:E2; cbn [andthen] in H; [|congruence].
  clear H. exists args. split.
  - unfold request_step in E2. assert (X : dget (clear_verified d) (u "request") = Some (VStr t)) by (rewrite dget_clear; exact Ht). rewrite X in E2.
    destruct (from_jwt E 0 (cdef C_oidc_OpenIDRequest) t (kw_jar K) true args) as [[ro h]|e] eqn:Ef; [|congruence].
    apply from_jwt_inv in Ef. destruct Ef as [_ [t' [p [Hd [_ Hx]]]]]. rewrite not_encrypted_decrypt in Hd by assumption. injection Hd as <-.
    destruct Hx as [[tok2 [X1 [_ [_ X4]]]]|[X1 _]]; [|congruence]. assert (tok2 = tok) by congruence. subst tok2. eapply jwt_check_sig; eassumption.
  - unfold authz_args, khas, dhas in Ea. unfold kget in *. destruct (dget (kw K) (u "opponent_id")) as [v|] eqn:Ev.
    + injection Ea as <-. rewrite request_args_opponent. exact Ev.
    + assert (X : dget (clear_verified d) (u "client_id") = dget d (u "client_id")) by (rewrite dget_clear; reflexivity). rewrite X in Ea.
      destruct (dget d (u "client_id")) as [x|]; [|discriminate]. injection Ea as <-. rewrite dget_app, request_args_opponent. unfold kget. rewrite Ev. reflexivity.
Qed.

Lemma object_signature : forall E K hdr c d d' t tok, takes_object c ->
  verify E K hdr c d = (d', Ok true) -> dget d (u "request") = Some (VStr t) ->
  not_encrypted E t -> e_jws E (VStr t) = Ok (Some tok) -> signed_tok tok -> signature_verified E t tok.
Proof.
  intros E K hdr c d d' t tok Hc H Ht Hn Hj Hs. destruct Hc as [Hc|[->| ->]].
  - destruct (object_keys _ _ _ _ _ _ _ _ Hc H Ht Hn Hj Hs) as (args & X & _). exists args. exact X.
  - destruct (c27_request _ _ _ _ _ _ H Ht) as (t' & req & X1 & _ & X2 & _). apply py_str_text in X1. subst t'. apply X2; assumption.
  - destruct (c27_par _ _ _ _ _ _ H Ht) as (t' & req & X1 & _ & X2 & _). apply py_str_text in X1. subst t'. apply X2; assumption.
Qed.
