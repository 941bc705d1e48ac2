(** Boolean versions of specification predicates, used to discharge the concrete cases. *)
From Coq Require Import List NArith ZArith Bool.
From Verif Require Import Base.Ustr Model.Value Spec.JsonSpec Proofs.ValueLemmas.
Import ListNotations.

Fixpoint nodupb (l : list ustr) : bool :=
  match l with [] => true | x :: r => negb (umem x r) && nodupb r end.
Lemma nodupb_ok : forall l, nodupb l = true -> NoDup l.
Proof.
  induction l as [|x l IH]; simpl; intro H; constructor; apply andb_true_iff in H; destruct H as [H1 H2].
  - apply negb_true_iff in H1. apply umem_not_In in H1. assumption.
  - auto.
Qed.

Fixpoint jsonb (v : value) : bool :=
  match v with
  | VNone | VBool _ | VInt _ => true
  | VStr s => scalars s
  | VList l => (fix go (l : list value) : bool := match l with [] => true | x :: r => jsonb x && go r end) l
  | VDict d => nodupb (map fst d) &&
      (fix go (d : list (ustr * value)) : bool :=
         match d with [] => true | (k, x) :: r => scalars k && jsonb x && go r end) d
  | _ => false
  end.
Lemma jsonb_ok : forall v, jsonb v = true -> json_value v.
Proof.
  induction v using value_ind'; simpl; intro Hv; try discriminate; try constructor.
  - assumption.
  - revert H. induction l as [|y l IH]; intros H x Hin; [destruct Hin|].
    apply andb_true_iff in Hv. destruct Hv as [H1 H2]. inversion H; subst.
    destruct Hin as [<-|Hin]; auto.
  - apply andb_true_iff in Hv. apply nodupb_ok. tauto.
  - apply andb_true_iff in Hv. destruct Hv as [_ Hv]. revert H. revert Hv.
    induction d as [|[k0 y] d IH]; intros Hv H k x Hin; [destruct Hin|].
    apply andb_true_iff in Hv. destruct Hv as [H1 H2]. apply andb_true_iff in H1. destruct H1 as [H0 H1].
    inversion H; subst. destruct Hin as [Heq|Hin].
    + injection Heq as <- <-. auto.
    + apply (IH H2) in Hin; assumption.
Qed.
