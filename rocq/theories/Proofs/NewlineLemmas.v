(** Universal newlines. *)
From Coq Require Import List NArith Bool String Lia ZifyBool ZifyN.
From Verif Require Import Base.Ustr Model.Value Model.FileStore Spec.CodecSpec Spec.NewlineSpec Spec.StorageSpec Proofs.StorageOther.
Import ListNotations.
Open Scope list_scope.
Open Scope N_scope.

Lemma newlines_read : forall n s, (List.length s <= n)%nat -> read_as s (newlines s).
Proof.
  induction n as [|n IH]; intros [|c s] H; try (cbn in H; lia); try constructor. cbn [newlines]. cbn [List.length] in H.
  destruct (N.eqb_spec c 13) as [->|C]; [|constructor; [exact C|apply IH; lia]]. destruct s as [|d s]; [constructor; [discriminate|constructor]|].
  destruct (N.eqb_spec d 10) as [->|D]; [apply RaPair; apply IH; cbn in H; lia|]. apply RaReturn; [congruence|apply IH; lia].
Qed.
Lemma read_as_newlines : forall s r, read_as s r -> r = newlines s.
Proof.
  induction 1 as [|s r H IH|s r N H IH|c s r C H IH]; [reflexivity| | |].
  - cbn [newlines]. change (13 =? 13) with true. change (10 =? 10) with true. cbn iota. congruence.
  - cbn [newlines]. change (13 =? 13) with true. cbn iota. subst r. destruct s as [|d s]; [reflexivity|]. destruct (N.eqb_spec d 10) as [->|D]; [destruct (N s eq_refl)|reflexivity].
  - cbn [newlines]. destruct (N.eqb_spec c 13); [congruence|]. congruence.
Qed.
Lemma newlines_iff : forall s r, newlines s = r <-> read_as s r.
Proof. intros s r. split; [intros <-; exact (newlines_read _ s (le_n _))|intro H; symmetry; exact (read_as_newlines s r H)]. Qed.
Lemma c62_lines : forall C D W S k v t r, placed C W D -> flat W D -> plain_key k -> c_ser C v = Ok t -> encodable t -> read_as t r ->
  exists W' S', set C W S k v = (W', S', Ok tt) /\ reading C W' k = c_deser C (strip r).
Proof.
  intros C D W S k v t r P F K E T R. rewrite (read_as_newlines t r R). destruct (restart_total C D W S k v t P F K E T) as (W' & S' & H1 & H2 & _). exists W', S'. split; assumption.
Qed.
(** ** white space *)
Lemma white_iff : forall c, is_space c = true <-> white c.
Proof.
  intro c. split.
  - intro H. unfold is_space in H. unfold white. cbn [In]. lia.
  - unfold white. cbn [In]. intro H. repeat (destruct H as [<-|H]; [reflexivity|]). destruct H.
Qed.
Lemma lstrip_white : forall a x, Forall white a -> lstrip_by is_space (a ++ x) = lstrip_by is_space x.
Proof. induction 1 as [|c a C _ IH]; [reflexivity|]. cbn [app lstrip_by]. rewrite (proj2 (white_iff c) C). exact IH. Qed.
Lemma lstrip_black : forall c x, ~ white c -> lstrip_by is_space (c :: x) = c :: x.
Proof. intros c x C. cbn [lstrip_by]. destruct (is_space c) eqn:E; [destruct (C (proj1 (white_iff c) E))|reflexivity]. Qed.
Lemma lstrip_split : forall s, exists a, s = a ++ lstrip_by is_space s /\ Forall white a /\ forall c r, lstrip_by is_space s = c :: r -> ~ white c.
Proof.
  induction s as [|c s (a & E & W & H)]; [exists []; split; [reflexivity|split; [constructor|discriminate]]|]. cbn [lstrip_by]. destruct (is_space c) eqn:C.
  - exists (c :: a). split; [cbn [app]; congruence|]. split; [constructor; [apply white_iff; exact C|exact W]|exact H].
  - exists []. split; [reflexivity|]. split; [constructor|]. intros c' r X. injection X as <- <-. rewrite <- white_iff. congruence.
Qed.
Lemma strip_trimmed : forall s, trimmed s (strip s).
Proof.
  intro s. unfold strip, strip_by. destruct (lstrip_split s) as (a & E & W & H). set (l := lstrip_by is_space s) in *.
  destruct (lstrip_split (rev l)) as (b & E' & W' & H'). set (r := lstrip_by is_space (rev l)) in *.
  assert (L : l = rev r ++ rev b) by (rewrite <- rev_app_distr, <- E', rev_involutive; reflexivity).
  exists a, (rev b). split; [congruence|]. split; [exact W|]. split; [apply Forall_rev; exact W'|]. split.
  - intros c x X. apply (H c (x ++ rev b)). rewrite L, X. reflexivity.
  - intros c x X. apply (H' c (rev x)). rewrite <- (rev_involutive r), X, rev_app_distr. reflexivity.
Qed.
Lemma trimmed_strip : forall s r, trimmed s r -> strip s = r.
Proof.
  intros s r (a & b & -> & A & B & F & L). unfold strip, strip_by. rewrite (lstrip_white a _ A). destruct r as [|c r].
  - cbn [app]. pose proof (lstrip_white b [] B) as X. rewrite app_nil_r in X. rewrite X. reflexivity.
  - cbn [app]. rewrite (lstrip_black c _ (F c r eq_refl)). change (c :: r ++ b) with ((c :: r) ++ b). rewrite rev_app_distr, (lstrip_white (rev b) _ (Forall_rev B)).
    destruct (exists_last (l := c :: r)) as (x & d & E); [discriminate|]. rewrite E, rev_app_distr. cbn [rev app]. rewrite (lstrip_black d _ (L d x E)). cbn [rev]. rewrite rev_involutive. reflexivity.
Qed.
Lemma strip_iff : forall s r, strip s = r <-> trimmed s r.
Proof. intros s r. split; [intros <-; apply strip_trimmed|apply trimmed_strip]. Qed.
Lemma c62_text : forall C D W S k v t r z, placed C W D -> flat W D -> plain_key k -> c_ser C v = Ok t -> encodable t -> read_as t r -> trimmed r z ->
  exists W' S', set C W S k v = (W', S', Ok tt) /\ reading C W' k = c_deser C z.
Proof. intros C D W S k v t r z P F K E T R Z. rewrite <- (trimmed_strip r z Z). exact (c62_lines C D W S k v t r P F K E T R). Qed.
