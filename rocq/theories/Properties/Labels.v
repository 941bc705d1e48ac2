(** C176, C177: what labels do to the keys, and which labels keep views apart. *)
From Coq Require Import List NArith ZArith Bool String Lia.
From Verif Require Import Base.Ustr Model.Value Model.FileStore Model.Labeled Spec.CodecSpec Spec.StorageSpec Spec.LabelSpec
  Proofs.Deciders Proofs.CodecLemmas Proofs.StorageSamples Proofs.LabelLemmas Proofs.LabelSamples.
Import ListNotations.
Open Scope list_scope.
Open Scope N_scope.

(** C176: the key under which a value is kept is the label between two pairs of underscores and then the key. *)
Theorem C176_text : forall label k v d, label <> [] ->
  dget (fst (ld_exec (render label) d (DSet k v))) (u "__" ++ label ++ u "__" ++ k) = Some v.
Proof. exact c176_text. Qed.
Print Assumptions C176_text.

(** C176: without a label it is the key. *)
Theorem C176_plain : forall k v d, dget (fst (ld_exec (render []) d (DSet k v))) k = Some v.
Proof. exact c176_plain. Qed.
Print Assumptions C176_plain.

(** C176: every key of one view is a key of another exactly if the label of the first is that of the
    other, or goes on after it with one underscore and nothing else, or with two and anything, or the
    other has none. *)
Theorem C176_meet : forall a b, inside a b <-> (forall k, exists k', labelled (render a) k' = labelled (render b) k).
Proof. exact c176_meet. Qed.
Print Assumptions C176_meet.

(** C176: in all other cases, and in no others, neither label as written is the start of the other. *)
Theorem C176_apart : forall a b, apart (render a) (render b) <-> ~ inside a b /\ ~ inside b a.
Proof. exact c176_apart. Qed.
Print Assumptions C176_apart.

Example C176_case :
  fst (ld_exec (render (u "a")) [] (DSet (u "k") (num 1))) = [(u "__a__k", num 1)] /\
  labelled (render (u "a")) (u "b__k") = labelled (render (u "a__b")) (u "k") /\
  labelled (render (u "a")) (u "_k") = labelled (render (u "a_")) (u "k") /\
  inside (u "a") (u "a_") /\ inside (u "a") (u "a__b") /\ ~ inside (u "a") (u "a_b").
Proof.
  repeat (split; [vm_compute; reflexivity|]). split; [right; right; left; reflexivity|].
  split; [right; right; right; exists (u "b"); reflexivity|].
  intros [H|[H|[H|[r H]]]]; discriminate H.
Qed.

(** C177: views see their own values only unless the keys of one are among those of the other.  Missing: labels
    that differ although they are so (refuted below). *)
Theorem C177_views_partial : forall C labels D W i h o W' P' rs W'' S'' r,
  placed C W D -> flat W D -> no_files W D -> NoDup (map fst (w_files W)) ->
  (forall j, j <> i -> ~ inside (labels i) (labels j) /\ ~ inside (labels j) (labels i)) ->
  Forall (fun e => vlegal C (render (labels (fst e))) (snd e)) h -> vlegal C (render (labels i)) o ->
  vrun C (fun j => render (labels j)) W (fun _ => s_new) h = (W', P', rs) ->
  vexec C (render (labels i)) W' (P' i) o = (W'', S'', r) ->
  vanswers (fun k => vlatest i k h) o r.
Proof. exact c177_views. Qed.
Print Assumptions C177_views_partial.

(** C177: views whose labels differ and are free of underscores see their own values only.  Missing: labels
    with underscores. *)
Theorem C177_clean_partial : forall C labels D W i h o W' P' rs W'' S'' r,
  placed C W D -> flat W D -> no_files W D -> NoDup (map fst (w_files W)) ->
  (forall j, clean (labels j)) -> (forall j, j <> i -> labels j <> labels i) ->
  Forall (fun e => vlegal C (render (labels (fst e))) (snd e)) h -> vlegal C (render (labels i)) o ->
  vrun C (fun j => render (labels j)) W (fun _ => s_new) h = (W', P', rs) ->
  vexec C (render (labels i)) W' (P' i) o = (W'', S'', r) ->
  vanswers (fun k => vlatest i k h) o r.
Proof. exact c176_views. Qed.
Print Assumptions C177_clean_partial.

Example C177_case :
  (forall j, clean (two_clean j)) /\ (forall j, j <> O -> two_clean j <> two_clean 0) /\
  Forall (fun e => vlegal jconf (render (two_clean (fst e))) (snd e)) lh /\
  let '(W', P', _) := vrun jconf (fun j => render (two_clean j)) w0 (fun _ => s_new) lh in
  snd (vexec jconf (render (two_clean 0)) W' (P' O) (VGet (u "k"))) = RVal (Ok (num 1)) /\
  snd (vexec jconf (render (two_clean 1)) W' (P' 1%nat) (VGet (u "k"))) = RVal (Ok (num 2)).
Proof.
  split; [exact (proj1 two_clean_ok)|]. split; [exact (proj2 two_clean_ok)|].
  split; [repeat (constructor; [apply vlegalb_ok; vm_compute; reflexivity|]); constructor|].
  vm_compute. split; reflexivity.
Qed.

(** C177: with the labels "a" and "a__b" the second view reads a value nobody wrote through it. *)
Theorem C177_refuted : exists C labels W i k h v,
  labels 0%nat <> labels 1%nat /\ labels 0%nat <> [] /\ labels 1%nat <> [] /\ vlatest i k h = None /\
  let '(W', P', _) := vrun C (fun j => render (labels j)) W (fun _ => s_new) h in
  snd (vexec C (render (labels i)) W' (P' i) (VGet k)) = RVal (Ok v).
Proof.
  exists jconf, two_meet, w0, 1%nat, (u "k"), mh, (num 1).
  split; [vm_compute; discriminate|]. split; [vm_compute; discriminate|]. split; [vm_compute; discriminate|].
  split; vm_compute; reflexivity.
Qed.
Print Assumptions C177_refuted.

(** C177: it is so for every such pair of labels: whatever the key, the first view can write the value that a new instance of the second reads. *)
Theorem C177_shared : forall C D W S a b k v t, placed C W D -> flat W D -> inside a b -> plain_key (labelled (render b) k) -> c_ser C v = Ok t -> encodable t ->
  exists k' W' S', v_set C (render a) W S k' v = (W', S', Ok tt) /\ reading C W' (labelled (render b) k) = c_deser C (strip (newlines t)).
Proof. exact c177_shared. Qed.
Print Assumptions C177_shared.

Example C177_shared_case : placed jconf w0 db /\ flat w0 db /\ inside (u "a") (u "a_") /\ plain_key (labelled (render (u "a_")) (u "k")) /\ c_ser jconf (num 1) = Ok (u "{""n"": 1}") /\ encodable (u "{""n"": 1}") /\
  reading jconf (ww (v_set jconf (render (u "a")) w0 s_new (u "_k") (num 1))) (labelled (render (u "a_")) (u "k")) = Ok (num 1).
Proof.
  split; [exact (proj1 w0_placed)|]. split; [exact w0_flat|]. split; [right; right; left; reflexivity|]. split; [apply plainb_ok; vm_compute; reflexivity|].
  split; [vm_compute; reflexivity|]. split; [apply encodable_iff; vm_compute; reflexivity|]. vm_compute. reflexivity.
Qed.
