(** A configuration for add_base_path. *)
From Coq Require Import List NArith ZArith Bool String.
From Verif Require Import Base.Ustr Model.Value Model.Config Spec.MessageSpec Spec.PathSpec.
Import ListNotations.
Open Scope list_scope.
Open Scope N_scope.

Lemma nested_paths : let items := VDict [(u "a", VDict [(u "b", VList [VStr (u "p")]); (u "q", VNone)]); ([], VList [VStr (u "log")])] in
  let conf p q := VDict [(u "log", VStr (u "/log")); (u "a", VDict [(u "b", VDict [(u "p", p)]); (u "q", q)])] in
  description items /\ add_base_path items (conf (VStr (u "/p")) (VStr (u "/q"))) = Ok tt /\
  addressed items (conf (VStr (u "/p")) (VStr (u "/q"))) (VStr (u "/p")) /\
  add_base_path items (conf (VStr (u "p")) (VStr (u "/q"))) = Err ENameError /\ add_base_path items (conf (VStr (u "/p")) (VStr (u "q"))) = Err ENameError /\
  add_base_path items (conf (VInt 1) VNone) = Err EAttributeError /\ add_base_path items (VDict [(u "a", VStr (u "b"))]) = Err EAttributeError.
Proof.
  intros items conf. split.
  - constructor. intros s i [H|[H|[]]]; injection H as <- <-.
    + right. right. constructor. intros s i [H|[H|[]]]; injection H as <- <-; [right; left; exists [u "p"]; reflexivity|left; reflexivity].
    + right. left. exists [u "log"]. reflexivity.
  - split; [reflexivity|]. split.
    + assert (S : forall c s p, s <> [] -> dget c s = Some p -> ~ empty_value p -> section_of (VDict c) s p).
      { intros c s p H1 H2 H3. split; [|exact H3]. right. split; [exact H1|]. exists c. split; [left; reflexivity|exact H2]. }
      eapply AdSub; [left; reflexivity|apply S; [discriminate|reflexivity|intro X; inversion X]|].
      eapply AdAttr; [left; reflexivity|apply S; [discriminate|reflexivity|intro X; inversion X]|left; reflexivity| |intro X; inversion X].
      eexists. split; [left; reflexivity|reflexivity].
    + repeat split; reflexivity.
Qed.
