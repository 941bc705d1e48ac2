(** Proofs of C15_classes. *)
From Coq Require Import List Bool.
From Verif Require Import Model.Cls Base.Ustr Base.UstrLemmas Model.Value Model.Pspec Model.Tables Spec.ClassSpec Proofs.TypeLemmas.
Import ListNotations.

(** ** names of classes *)
Lemma class_names : forall c1 c2, cd_name (cdef c1) = cd_name (cdef c2) <-> c1 = c2 \/ exists g, In g namesakes /\ In c1 g /\ In c2 g.
Proof.
  assert (H : forallb (fun c1 => forallb (fun c2 => Bool.eqb (ueqb (cd_name (cdef c1)) (cd_name (cdef c2)))
     ((if cls_eq_dec c1 c2 then true else false) ||
      existsb (fun g => (if in_dec cls_eq_dec c1 g then true else false) && (if in_dec cls_eq_dec c2 g then true else false)) namesakes)) all_cls) all_cls = true)
    by (vm_compute; reflexivity).
  intros c1 c2. rewrite forallb_forall in H. pose proof (H c1 (in_all_cls c1)) as H1. rewrite forallb_forall in H1. specialize (H1 c2 (in_all_cls c2)).
  apply eqb_prop in H1. rewrite <- ueqb_eq, H1, orb_true_iff, existsb_exists. clear H H1. split.
  - intros [H|(g & G & H)]; [left; destruct (cls_eq_dec c1 c2); [assumption|discriminate]|right; exists g; split; [exact G|]].
    destruct (in_dec cls_eq_dec c1 g), (in_dec cls_eq_dec c2 g); try discriminate. split; assumption.
  - intros [H|(g & G & H1 & H2)]; [left; destruct (cls_eq_dec c1 c2); [reflexivity|contradiction]|right; exists g; split; [exact G|]].
    destruct (in_dec cls_eq_dec c1 g), (in_dec cls_eq_dec c2 g); try contradiction. reflexivity.
Qed.
