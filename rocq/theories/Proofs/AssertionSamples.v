(** An assertion for the examples. *)
From Coq Require Import List NArith ZArith Bool String Lia.
From Verif Require Import Base.Ustr Base.UstrLemmas Model.Cls Model.Value Model.Pspec Model.Tables Model.Message Model.Env Model.Verify Model.Jose
  Spec.MessageSpec Spec.CodecSpec Spec.RoundTripSpec Spec.VerifySpec Spec.JoseSpec Spec.FlowSpec Spec.AssertionSpec Proofs.ValueLemmas Proofs.JoseSamples Proofs.FlowSamples.
Import ListNotations.
Open Scope list_scope.
Open Scope N_scope.

Definition as_claims : dict value := assertion (u "rp & co") [u "https://op"; u "https://op/token"] (u "j1") 1000 1300.
Definition as_token : ustr := ok_or [] (snd (to_jwt toy (toy_env 1000) C_oidc_AuthnToken as_claims [7] (u "RS256") (VInt 0))).
Lemma as_ok : assertion_ok (u "rp & co") [u "https://op"; u "https://op/token"] (u "j1") 1300.
Proof.
  constructor; try (split; [reflexivity|discriminate]); try discriminate.
  intros a H. cbn [In] in H. destruct H as [<-|[<-|[]]]; split; (reflexivity || discriminate).
Qed.
Lemma as_trusted : forall now, trusts (toy_env now) 0 [] as_token.
Proof. intro now. match goal with |- trusts _ _ _ ?t => let x := eval vm_compute in t in change t with x end. apply toy_trusts. intros v Hv. discriminate Hv. Qed.
