(** C173, C174: processes (or threads) that share the SQL table. *)
From Coq Require Import List NArith ZArith Bool String.
From Verif Require Import Base.Ustr Model.Value Model.Sql Model.Sessions Spec.StorageSpec Spec.SessionSpec Proofs.SessionLemmas.
Import ListNotations.
Open Scope list_scope.

(** C173: a key that one session has for itself holds one row with the last value, whatever the others do in between ... *)
Theorem C173_own_key : forall i k ops l, only i k l -> has_done i ops l ->
  found (srun shared_empty l) i k = match held k ops None with Some v => [v] | None => [] end.
Proof. exact c173_own. Qed.
Print Assumptions C173_own_key.

(** ... which get returns ... *)
Theorem C173_get : forall i k ops l, only i k l -> has_done i ops l ->
  shared_get (srun shared_empty l) i k = match held k ops None with Some v => VStr v | None => VNone end.
Proof. exact c173_get. Qed.
Print Assumptions C173_get.

(** ... and which every session reads once the transaction has ended. *)
Theorem C173_readers : forall i k ops l, only i k l -> has_done i ops l -> settled ops ->
  forall j, found (srun shared_empty l) j k = match held k ops None with Some v => [v] | None => [] end.
Proof. exact c173_readers. Qed.
Print Assumptions C173_readers.

(** Until then, after deletions and in the middle of any operation, the others read what they read before. *)
Theorem C173_midst : forall i k ops dels p s q o l, only i k l -> of_session i l = flat_map stmts (ops ++ dels) ++ p -> settled ops ->
  (forall x, In x dels -> exists k', x = QDelete k') -> stmts o = p ++ s :: q ->
  forall j, j <> i -> found (srun shared_empty l) j k = match held k ops None with Some v => [v] | None => [] end.
Proof. exact c173_during. Qed.
Print Assumptions C173_midst.

(** A process that dies then (or rolls back) takes back what it did since: everybody, also its successor, reads what was read before. *)
Theorem C173_crash : forall i k ops dels p s q o l, only i k l -> of_session i l = flat_map stmts (ops ++ dels) ++ p ++ [SRollback] -> settled ops ->
  (forall x, In x dels -> exists k', x = QDelete k') -> stmts o = p ++ s :: q ->
  forall j, found (srun shared_empty l) j k = match held k ops None with Some v => [v] | None => [] end.
Proof. exact c173_crash. Qed.
Print Assumptions C173_crash.

(** Whoever writes what: get returns only what was written under the key. *)
Theorem C173_written : forall l i k v, shared_get (srun shared_empty l) i k = VStr v -> was_written k v l.
Proof. exact c173_written. Qed.
Print Assumptions C173_written.

(** One session alone is the session of C72 and C117, row by row. *)
Theorem C173_one : forall ops i, let b := srun shared_empty (map (pair i) (flat_map stmts ops)) in
  b_rows b = q_disc (qrun sql_empty ops) /\ visible b i = q_rows (qrun sql_empty ops).
Proof. exact c173_one. Qed.
Print Assumptions C173_one.

(** session 0 sets, updates and deletes a; session 1 sets b in between; the deletion is seen by others after flush *)
Example C173_case : let a := u "a" in let b := u "b" in
  let l := [(0, SDelete a); (1, SDelete b); (0, SInsert a (u "1")); (1, SInsert b (u "x")); (1, SCommit); (0, SCommit);
            (0, SUpdate a (u "2")); (1, SUpdate b (u "y")); (0, SCommit)]%nat in
  only 0 a l /\ has_done 0 [QSet a (u "1"); QUpdate a (u "2")] l /\ settled [QSet a (u "1"); QUpdate a (u "2")] /\
  found (srun shared_empty l) 0 a = [u "2"] /\ found (srun shared_empty l) 1 a = [u "2"] /\
  found (srun shared_empty l) 1 b = [u "y"] /\ found (srun shared_empty l) 0 b = [u "x"] /\
  found (srun shared_empty (l ++ [(0, SDelete a)]%nat)) 0 a = [] /\ found (srun shared_empty (l ++ [(0, SDelete a)]%nat)) 1 a = [u "2"].
Proof.
  repeat split; try (vm_compute; reflexivity).
  - intros j s H A. cbn [In] in H. repeat (destruct H as [H|H]; [injection H as <- <-; first [reflexivity | contradiction A | vm_compute in A; discriminate A]|]). contradiction.
  - right. exists [QSet (u "a") (u "1")], (QUpdate (u "a") (u "2")). split; [reflexivity|]. intros k H. discriminate H.
Qed.

(** after a deletion and in the middle of a second set the others read the first value *)
Example C173_case_midst : let a := u "a" in
  let l := map (pair 0%nat) (flat_map stmts ([QSet a (u "1")] ++ [QDelete a]) ++ [SDelete a; SInsert a (u "2")]) ++ [(1%nat, SCommit)] in
  only 0 a l /\ of_session 0 l = flat_map stmts ([QSet a (u "1")] ++ [QDelete a]) ++ [SDelete a; SInsert a (u "2")] /\ settled [QSet a (u "1")] /\
  (forall x, In x [QDelete a] -> exists k', x = QDelete k') /\ stmts (QSet a (u "2")) = [SDelete a; SInsert a (u "2")] ++ SCommit :: [] /\
  found (srun shared_empty l) 1 a = [u "1"] /\ found (srun shared_empty l) 0 a = [u "2"].
Proof.
  repeat split; try (vm_compute; reflexivity).
  - intros j s H A. cbn [In map app stmts flat_map] in H. repeat (destruct H as [H|H]; [injection H as <- <-; first [reflexivity | contradiction A]|]). contradiction.
  - right. exists [], (QSet (u "a") (u "1")). split; [reflexivity|]. intros k H. discriminate H.
  - intros x [<-|[]]. exists (u "a"). reflexivity.
Qed.

(** it dies after a deletion and in the middle of a second set *)
Example C173_case_crash : let a := u "a" in
  let l := map (pair 0%nat) (flat_map stmts ([QSet a (u "1")] ++ [QDelete a]) ++ [SDelete a; SInsert a (u "2")] ++ [SRollback]) in
  only 0 a l /\ of_session 0 l = flat_map stmts ([QSet a (u "1")] ++ [QDelete a]) ++ [SDelete a; SInsert a (u "2")] ++ [SRollback] /\
  found (srun shared_empty l) 0 a = [u "1"] /\ found (srun shared_empty l) 1 a = [u "1"].
Proof.
  repeat split; try (vm_compute; reflexivity).
  intros j s H A. apply in_map_iff in H. destruct H as (x & H & _). congruence.
Qed.

(** C174 is false: two sessions that set a new key at the same time leave two rows, for the column is not unique,
    and the one that was last reads the value of the other. *)
Theorem C174_both_refuted : exists k l, has_done 0 [QSet k (u "1")] l /\ has_done 1 [QSet k (u "2")] l /\
  (exists m, l = m ++ [(1%nat, SCommit)]) /\
  forall j, found (srun shared_empty l) j k = [u "1"; u "2"] /\ shared_get (srun shared_empty l) j k = VStr (u "1").
Proof.
  exists (u "a"), [(0, SDelete (u "a")); (1, SDelete (u "a")); (0, SInsert (u "a") (u "1")); (1, SInsert (u "a") (u "2")); (0, SCommit); (1, SCommit)]%nat.
  split; [reflexivity|]. split; [reflexivity|]. split; [eexists [_; _; _; _; _]; reflexivity|].
  intros [|[|j]]; split; vm_compute; reflexivity.
Qed.
Print Assumptions C174_both_refuted.

(** What holds: after any history, set leaves one row, that all sessions read, if no other transaction was open. *)
Theorem C174_alone_partial : forall l i k v, let b := srun shared_empty l in quiet_but b i ->
  forall j, found (srun b (map (pair i) (stmts (QSet k v)))) j k = [v].
Proof. exact c174_alone. Qed.
Print Assumptions C174_alone_partial.

(** the two rows of the case above are one again *)
Example C174_case : let a := u "a" in
  let l := [(0, SDelete a); (1, SDelete a); (0, SInsert a (u "1")); (1, SInsert a (u "2")); (0, SCommit); (1, SCommit)]%nat in
  quiet_but (srun shared_empty l) 1 /\ found (srun shared_empty l) 0 a = [u "1"; u "2"] /\
  found (srun (srun shared_empty l) (map (pair 1%nat) (stmts (QSet a (u "3"))))) 0 a = [u "3"].
Proof. split; [|split; vm_compute; reflexivity]. intros [|[|j]] H; vm_compute; reflexivity. Qed.
