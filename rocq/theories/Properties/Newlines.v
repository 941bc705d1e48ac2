(** C62: line ends in stored texts. *)
From Coq Require Import List NArith Bool String.
From Verif Require Import Base.Ustr Model.Value Model.FileStore Spec.CodecSpec Spec.NewlineSpec Spec.StorageSpec
  Proofs.Deciders Proofs.CodecLemmas Proofs.StorageSamples Proofs.NewlineLemmas.
Import ListNotations.
Open Scope list_scope.
Open Scope N_scope.

(** C62: [newlines], used in the other theorems, makes one line feed of each carriage return with or without a line feed, and nothing else. *)
Theorem C62_newlines : forall s r, newlines s = r <-> read_as s r.
Proof. exact newlines_iff. Qed.
Print Assumptions C62_newlines.

(** C62: [strip], used in the other theorems, takes the white space of Unicode off both ends, and nothing else. *)
Theorem C62_trimmed : forall s r, strip s = r <-> trimmed s r.
Proof. exact strip_iff. Qed.
Print Assumptions C62_trimmed.

(** C62: a new instance reads the text with such line ends, trimmed. *)
Theorem C62_lines : forall C D W S k v t r z, placed C W D -> flat W D -> plain_key k -> c_ser C v = Ok t -> encodable t -> read_as t r -> trimmed r z ->
  exists W' S', set C W S k v = (W', S', Ok tt) /\ reading C W' k = c_deser C z.
Proof. exact c62_text. Qed.
Print Assumptions C62_lines.

Example C62_lines_case : let t := [160; 97; 13; 10; 98; 13; 99; 10; 100; 13; 13; 10; 101; 8232; 13] in
  plain_key (u "k") /\ c_ser tconf (VStr t) = Ok t /\ encodable t /\ read_as t [160; 97; 10; 98; 10; 99; 10; 100; 10; 10; 101; 8232; 10] /\
  trimmed [160; 97; 10; 98; 10; 99; 10; 100; 10; 10; 101; 8232; 10] [97; 10; 98; 10; 99; 10; 100; 10; 10; 101] /\
  reading tconf (ww (set tconf w0 s_new (u "k") (VStr t))) (u "k") = Ok (VStr [97; 10; 98; 10; 99; 10; 100; 10; 10; 101]).
Proof.
  intro t. split; [apply plainb_ok; vm_compute; reflexivity|]. split; [reflexivity|]. split; [apply encodable_iff; vm_compute; reflexivity|].
  split; [apply newlines_iff; vm_compute; reflexivity|]. split; [apply strip_iff; vm_compute; reflexivity|]. vm_compute. reflexivity.
Qed.
