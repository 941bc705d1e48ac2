(** Truth values. *)
From Coq Require Import List NArith ZArith QArith Bool String Lia.
From Verif Require Import Base.Ustr Model.Value Model.FileStore Model.Labeled Model.Config Spec.StorageSpec Spec.TruthSpec Proofs.ConfigLemmas.
Import ListNotations.
Open Scope list_scope.
Open Scope N_scope.

Lemma truthy_false : forall v, truthy v = false <-> counts_false v.
Proof.
  intro v. split.
  - destruct v as [|b|z|q|s|l|d|c d]; cbn [truthy]; intro H.
    + constructor.
    + subst b. constructor.
    + apply negb_false_iff, Z.eqb_eq in H. rewrite H. constructor.
    + apply negb_false_iff in H. constructor. apply Qeq_bool_iff. exact H.
    + destruct s; [constructor|discriminate].
    + destruct l; [constructor|discriminate].
    + destruct d; [constructor|discriminate].
    + destruct d; [constructor|discriminate].
  - destruct 1 as [| | |q H| | | |]; try reflexivity. cbn [truthy]. rewrite (proj2 (Qeq_bool_iff q 0) H). reflexivity.
Qed.
Lemma truthy_true : forall v, truthy v = true <-> ~ counts_false v.
Proof. intro v. rewrite <- truthy_false. destruct (truthy v); split; congruence. Qed.
Lemma c75_conf : forall d typ,
  (~ counts_false (entry d typ) -> get_storage_conf (VDict d) typ = Ok (entry d typ)) /\
  (d <> [] -> counts_false (entry d typ) -> typ <> u "default" -> get_storage_conf (VDict d) typ = Ok (entry d (u "default"))) /\
  (d <> [] -> counts_false (entry d (u "default")) -> get_storage_conf (VDict d) (u "default") = Err EConfigurationError).
Proof. intros d typ. rewrite <- truthy_true, <- !truthy_false. destruct (storage_conf d typ) as (A & B & C & _). auto. Qed.
Lemma c75_init : forall d key own e c, entry d key = own ->
  (~ counts_false own /\ e = own \/ counts_false own /\ key <> u "default" /\ e = entry d (u "default")) -> d <> [] -> e = VDict c -> c <> [] ->
  (counts_false (entry c (u "handler")) -> init_storage (VDict d) key = Err EConfigurationError) /\
  (~ counts_false (entry c (u "handler")) -> init_storage (VDict d) key = Ok (Handler (entry c (u "handler")) (ddel c (u "handler")))).
Proof.
  intros d key own e c <- H D E N. destruct (storage_chosen d key) as (A & _). cbn zeta in A. specialize (A c D).
  rewrite <- !truthy_true, <- !truthy_false in *. destruct H as [[H ->]|(H & K & ->)]; rewrite H in A.
  - specialize (A (or_introl eq_refl) E N). split; intro F; rewrite F in A; exact A.
  - specialize (A (or_intror K) E N). split; intro F; rewrite F in A; exact A.
Qed.
