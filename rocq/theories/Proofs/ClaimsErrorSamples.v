(** Cases for C166. *)
From Coq Require Import List NArith ZArith QArith Bool String.
From Verif Require Import Base.Ustr Model.Cls Model.Value Model.Pspec Model.Tables Model.Json Model.Message Model.IdentityAssurance Model.Env Model.Verify
  Spec.JsonSpec Spec.RaiseSpec Spec.IdaSpec Spec.ClaimsErrorSpec Proofs.Samples Proofs.RoundTripSamples.
Import ListNotations.
Open Scope list_scope.
Open Scope N_scope.

Definition ce_evidence (x : value) : dict value := [(u "type", VDict [(u "value", x)]); (u "method", VNone)].
Definition ce_verification (x : value) : dict value := [(u "trust_framework", VDict [(u "value", VStr (u "de_aml"))]); (u "evidence", VList [VDict (ce_evidence x); VNone])].
Definition ce_request (x : value) : dict value := [(u "verification", VDict (ce_verification x));
  (u "claims", VDict [(u "given_name", VNone); (u "family_name", VInt 7);
     (u "birthdate", VDict [(u "essential", VBool true); (u "values", VList [VStr (u "1990-01-01")]); (u "purpose", VStr (u "To check your age"))])])].

Lemma one_shape : forall t d, simple t -> match dget d (u "values") with None | Some (VList _) => True | _ => False end ->
  match dget d (u "purpose") with None | Some (VStr _) => True | _ => False end -> shaped t (VDict d).
Proof.
  intros t d Ht H1 H2. apply ShSingle; [exact Ht|]. intros d' E. injection E as <-. split; intros x Hx.
  - rewrite Hx in H1. destruct x; try contradiction. eexists. reflexivity.
  - rewrite Hx in H2. destruct x; try contradiction. intros _. left. eexists. reflexivity.
Qed.
Lemma other_shape : forall t v, simple t -> (forall d, v <> VDict d) -> shaped t v.
Proof. intros t v Ht H. apply ShSingle; [exact Ht|]. intros d E. destruct (H d E). Qed.
Ltac object := match goal with |- shaped (TMsg ?c) (VDict ?d) => apply (ShObject c (VDict d) d); [left; reflexivity|] end;
  let k := fresh "k" in let s := fresh "s" in let x := fresh "x" in let H := fresh "H" in let Hx := fresh "Hx" in intros k s x H Hx;
  match type of H with In _ ?l => let l' := eval vm_compute in l in change (In (k, s) l') in H end;
  repeat (destruct H as [H|H]; [injection H as <- <-; first [discriminate Hx | injection Hx as <-; cbn [p_typ]]|]); try contradiction.
Ltac single := first [apply ShNull | apply one_shape; [unfold simple; tauto|exact I|exact I] | apply other_shape; [unfold simple; tauto|discriminate]].
Lemma ce_shaped : forall x, shaped (TMsg C_ida_VerifiedClaims) (VDict (ce_request x)).
Proof.
  intro x. object.
  - object.
    + single.
    + apply (ShList _ _ [VDict (ce_evidence x); VNone]); [reflexivity|]. intros y [<-|[<-|[]]]; [|apply ShNull]. object; single.
  - object; single.
Qed.
Definition ce_outcome (vc : dict value) : res bool := snd (verify sample (with_jar []) None C_ida_IDAClaimsRequest [(u "verified_claims", VDict vc)]).
Definition ce_odd (k : string) (v : value) : dict value := [(u "claims", VDict [(u "birthdate", VDict [(u k, v)])])].

(** what is wrong leads to other exceptions *)
Lemma ce_conditions : map ce_outcome
    [ce_odd "values" (VInt 5); ce_odd "purpose" (VInt 5); [(u "verification", VDict [(u "evidence", VList [VStr (u "passport")])])];
     [(u "verification", VDict [(u "evidence", VInt 1)])]; [(u "self", VNone)]] =
  [Err ETypeError; Err ETypeError; Err ETypeError; Err ETypeError; Err ETypeError] /\
  snd (verify sample (with_jar []) None C_ida_IDAClaimsRequest [(u "verified_claims", VList [VDict []])]) = Err ETypeError.
Proof. vm_compute. split; reflexivity. Qed.
