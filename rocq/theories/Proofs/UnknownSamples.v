(** An authorization request with unknown parameters. *)
From Coq Require Import List NArith ZArith Bool String.
From Verif Require Import Base.Ustr Model.Cls Model.Value Model.Pspec Model.Tables Model.Message Model.Env Model.Verify
  Spec.MessageSpec Spec.DispatchSpec Spec.UnknownSpec Proofs.ValueLemmas Proofs.Samples Proofs.DispatchLemmas.
Import ListNotations.
Open Scope list_scope.
Open Scope N_scope.

Lemma sample_json : json_payloads sample.
Proof.
  assert (H : forallb (fun kt : ustr * token => match t_body (snd kt) with
      | Ok (VDict l) => forallb (fun kv : ustr * value => match snd kv with VMsg _ _ => false | _ => true end) l
      | Ok (VMsg _ _) => false | _ => true end) tokens = true) by (vm_compute; reflexivity).
  rewrite forallb_forall in H. intros t tok b Ht Hb. destruct t; try discriminate Ht. assert (Ht' : dget tokens s = Some tok) by (change (Ok (dget tokens s) = Ok (Some tok)) in Ht; congruence). clear Ht.
  apply dget_In in Ht'. specialize (H _ Ht'). cbn [snd] in H. rewrite Hb in H. destruct b; try exact I; [|discriminate].
  rewrite forallb_forall in H. intros k x Hin c m ->. specialize (H _ Hin). discriminate.
Qed.
Definition uk_request : ustr := u "response_type=code&client_id=c&redirect_uri=https%3A%2F%2Frp%2Fcb&scope=openid&state=x".
Definition uk_more : ustr := u "utm=1&foo=bar&utm=2".
Lemma uk_some : exists k, gives uk_request k.
Proof. exists (u "state"). apply parse_qs_gives. vm_compute. tauto. Qed.
Lemma uk_unknown : forall k, gives uk_more k -> known C_oidc_AuthorizationRequest k = false.
Proof.
  intros k H. apply parse_qs_gives in H. vm_compute in H. destruct H as [<-|[<-|[]]]; vm_compute; reflexivity.
Qed.
