(** Labels of views. *)
From Coq Require Import List NArith ZArith Bool String Lia.
From Verif Require Import Base.Ustr Base.UstrLemmas Model.Value Model.FileStore Model.Labeled Spec.CodecSpec Spec.StorageSpec Spec.LabelSpec Proofs.ValueLemmas Proofs.LabeledLemmas Proofs.StorageMore Proofs.StorageOther.
From Verif Require Proofs.TypeLemmas.
Import ListNotations.
Open Scope list_scope.
Open Scope N_scope.

Lemma render_some : forall a, a <> [] -> render a = u "__" ++ a ++ u "__".
Proof. intros [|c a] H; [congruence|reflexivity]. Qed.
Lemma prefix_inside : forall a b, (exists r, render b = render a ++ r) <-> inside a b.
Proof.
  intros a b. unfold inside. destruct (list_eq_dec N.eq_dec a []) as [->|A]; [split; [left; reflexivity|intros _; exists (render b); reflexivity]|].
  rewrite (render_some a A). destruct (list_eq_dec N.eq_dec b []) as [->|B].
  - split; [intros [r H]; discriminate H|]. intros [H|[H|[H|[r H]]]]; [congruence|congruence|destruct a; discriminate H|destruct a; discriminate H].
  - rewrite (render_some b B). change (u "_") with [95]. change (u "__") with [95; 95]. split.
    + intros [r H]. rewrite <- !app_assoc in H. apply app_inv_head in H. right. apply app_eq_app in H. destruct H as [l [[E1 E2]|[E1 E2]]].
      * destruct l as [|x [|y l]].
        -- left. rewrite app_nil_r in E1. exact E1.
        -- right; left. cbn [app] in E2. injection E2 as <- _. exact E1.
        -- right; right. cbn [app] in E2. injection E2 as <- <- _. exists l. exact E1.
      * apply (f_equal (@List.length N)) in E2. rewrite !app_length in E2. cbn [List.length] in E2. assert (l = []) by (destruct l; [reflexivity|cbn in E2; lia]). subst l.
        left. rewrite app_nil_r in E1. congruence.
    + intros [H|[->|[->|[r ->]]]]; [congruence| | |].
      * exists []. rewrite app_nil_r. reflexivity.
      * exists [95]. rewrite <- !app_assoc. reflexivity.
      * exists (r ++ [95; 95]). rewrite <- !app_assoc. reflexivity.
Qed.
Lemma c176_apart : forall a b, apart (render a) (render b) <-> ~ inside a b /\ ~ inside b a.
Proof. intros a b. unfold apart. rewrite <- !prefix_inside. tauto. Qed.
Lemma clean_apart : forall a b, clean a -> clean b -> a <> b -> ~ inside a b.
Proof.
  intros a b [A _] [_ B] N [H|[H|[H|[r H]]]]; [congruence|congruence| |]; apply B; rewrite H; apply in_app_iff; right; left; reflexivity.
Qed.
Lemma c176_meet : forall a b, inside a b <-> (forall k, exists k', labelled (render a) k' = labelled (render b) k).
Proof.
  intros a b. rewrite <- prefix_inside. unfold labelled. split.
  - intros [r H] k. exists (r ++ k). rewrite H, app_assoc. reflexivity.
  - intro H. destruct (H []) as [r E]. exists r. rewrite app_nil_r in E. congruence.
Qed.
Lemma c176_views : forall C labels D W i h o W' P' rs W'' S'' r,
  placed C W D -> flat W D -> no_files W D -> NoDup (map fst (w_files W)) ->
  (forall j, clean (labels j)) -> (forall j, j <> i -> labels j <> labels i) ->
  Forall (fun e => vlegal C (render (labels (fst e))) (snd e)) h -> vlegal C (render (labels i)) o ->
  vrun C (fun j => render (labels j)) W (fun _ => s_new) h = (W', P', rs) -> vexec C (render (labels i)) W' (P' i) o = (W'', S'', r) ->
  vanswers (fun k => vlatest i k h) o r.
Proof.
  intros C labels D W i h o W' P' rs W'' S'' r H1 H2 H3 H4 K N H6 H7 H8 H9. apply (views C (fun j => render (labels j)) D W i h o W' P' rs W'' S'' r H1 H2 H3 H4); [|exact H6|exact H7|exact H8|exact H9].
  intros j J. apply c176_apart. specialize (N j J). split; apply clean_apart; auto.
Qed.
Lemma c176_text : forall label k v d, label <> [] -> dget (fst (ld_exec (render label) d (DSet k v))) (u "__" ++ label ++ u "__" ++ k) = Some v.
Proof. intros label k v d H. cbn [ld_exec fst]. unfold labelled. rewrite (render_some label H), <- !app_assoc. apply dget_dset_same. Qed.
Lemma c176_plain : forall k v d, dget (fst (ld_exec (render []) d (DSet k v))) k = Some v.
Proof. intros k v d. cbn [ld_exec fst]. apply dget_dset_same. Qed.
Lemma c177_views : forall C labels D W i h o W' P' rs W'' S'' r,
  placed C W D -> flat W D -> no_files W D -> NoDup (map fst (w_files W)) ->
  (forall j, j <> i -> ~ inside (labels i) (labels j) /\ ~ inside (labels j) (labels i)) ->
  Forall (fun e => vlegal C (render (labels (fst e))) (snd e)) h -> vlegal C (render (labels i)) o ->
  vrun C (fun j => render (labels j)) W (fun _ => s_new) h = (W', P', rs) -> vexec C (render (labels i)) W' (P' i) o = (W'', S'', r) ->
  vanswers (fun k => vlatest i k h) o r.
Proof.
  intros C labels D W i h o W' P' rs W'' S'' r H1 H2 H3 H4 N H6 H7 H8 H9. apply (views C (fun j => render (labels j)) D W i h o W' P' rs W'' S'' r H1 H2 H3 H4); [|exact H6|exact H7|exact H8|exact H9].
  intros j J. apply c176_apart. exact (N j J).
Qed.
Lemma c177_shared : forall C D W S a b k v t, placed C W D -> flat W D -> inside a b -> plain_key (labelled (render b) k) -> c_ser C v = Ok t -> encodable t ->
  exists k' W' S', v_set C (render a) W S k' v = (W', S', Ok tt) /\ reading C W' (labelled (render b) k) = c_deser C (strip (newlines t)).
Proof.
  intros C D W S a b k v t P F I K E T. destruct (proj1 (c176_meet a b) I k) as [k' EQ]. exists k'. unfold v_set. rewrite EQ.
  destruct (restart_total C D W S _ v t P F K E T) as (W' & S' & H1 & H2 & _). exists W', S'. split; assumption.
Qed.
