(** Two views with labels without underscores, and two that meet. *)
From Coq Require Import List NArith ZArith Bool String Lia.
From Verif Require Import Base.Ustr Model.Value Model.FileStore Model.Labeled Spec.StorageSpec Spec.LabelSpec Proofs.Deciders Proofs.StorageSamples.
Import ListNotations.
Open Scope list_scope.
Open Scope N_scope.

Definition two_clean (j : nat) : ustr := match j with O => u "client" | _ => u "session" end.
Definition two_meet (j : nat) : ustr := match j with O => u "a" | _ => u "a__b" end.
Definition lh : list (nat * vop) := [(0%nat, VSet (u "k") (num 1)); (1%nat, VSet (u "k") (num 2))].
Definition mh : list (nat * vop) := [(0%nat, VSet (u "b__k") (num 1))].
Lemma two_clean_ok : (forall j, clean (two_clean j)) /\ (forall j, j <> O -> two_clean j <> two_clean 0).
Proof.
  split.
  - intros [|j]; (split; [discriminate|]); intro H; vm_compute in H; repeat (destruct H as [H|H]; [discriminate H|]); destruct H.
  - intros [|j] H; [congruence|]. vm_compute. discriminate.
Qed.
