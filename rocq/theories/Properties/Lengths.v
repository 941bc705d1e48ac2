(** C84: the length of a view, by labels. *)
From Coq Require Import List NArith ZArith Bool String.
From Verif Require Import Base.Ustr Model.Value Model.FileStore Model.Labeled Spec.StorageSpec Spec.LabelSpec
  Proofs.Deciders Proofs.StorageSamples Proofs.LabelSamples Proofs.LengthLemmas.
Import ListNotations.
Open Scope list_scope.
Open Scope N_scope.

(** C84: the length of a view is the number of its keys if its label consists of characters that are kept in file names and keeps it
    apart from the other views.  Missing: other labels (below). *)
Theorem C84_label_length_partial : forall C labels D W i h W' P' rs W'' S'' r,
  placed C W D -> flat W D -> no_files W D -> NoDup (map fst (w_files W)) ->
  (forall j, j <> i -> ~ inside (labels i) (labels j) /\ ~ inside (labels j) (labels i)) -> own_name (labels i) ->
  Forall (fun e => vlegal C (render (labels (fst e))) (snd e)) h ->
  vrun C (fun j => render (labels j)) W (fun _ => s_new) h = (W', P', rs) -> vexec C (render (labels i)) W' (P' i) VLen = (W'', S'', r) ->
  exists l, r = RLen (Ok (List.length l)) /\ NoDup l /\ forall k, In k l <-> vlatest i k h <> None.
Proof. exact label_length. Qed.
Print Assumptions C84_label_length_partial.

(** C84: with every other label the length is 0 whatever has been done: file names are quoted, and none of them begins with the label. *)
Theorem C84_never_counts : forall C label D W i h W' P' rs W'' S'' r,
  placed C W D -> flat W D -> no_files W D -> NoDup (map fst (w_files W)) -> ~ own_name label ->
  Forall (fun e => vlegal C (render label) (snd e)) h ->
  vrun C (fun _ => render label) W (fun _ => s_new) h = (W', P', rs) -> vexec C (render label) W' (P' i) VLen = (W'', S'', r) ->
  r = RLen (Ok 0%nat).
Proof. exact never_counts. Qed.
Print Assumptions C84_never_counts.

Example C84_label_case : let L := render (u "50%25") in
  ~ own_name (u "50%25") /\ own_name (u "client") /\ Forall (fun e => vlegal jconf L (snd e)) lh /\
  let '(W', P', _) := vrun jconf (fun _ => L) w0 (fun _ => s_new) lh in
  snd (vexec jconf L W' (P' O) VKeys) = RKeys (Ok [u "k"]) /\ snd (vexec jconf L W' (P' O) VLen) = RLen (Ok O) /\ listdir W' db = Ok [u "__50%2525__k.lock"; u "__50%2525__k"].
Proof.
  intro L. split; [exact percent_alien|].
  split; [apply ownb_ok; reflexivity|]. split; [repeat (constructor; [apply vlegalb_ok; vm_compute; reflexivity|]); constructor|].
  vm_compute. repeat split; reflexivity.
Qed.
