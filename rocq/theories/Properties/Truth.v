(** C75: entries that count as false. *)
From Coq Require Import List NArith ZArith Bool String.
From Verif Require Import Base.Ustr Model.Value Model.FileStore Model.Config Spec.StorageSpec Spec.TruthSpec Proofs.ConfigLemmas Proofs.TruthLemmas.
Import ListNotations.
Open Scope list_scope.
Open Scope N_scope.

(** C75: [truthy], used in C75, C98, C160 and C166, is the truth of Python. *)
Theorem C75_truth : forall v, truthy v = false <-> counts_false v.
Proof. exact truthy_false. Qed.
Print Assumptions C75_truth.

(** C75: an entry that counts as false is as good as none. *)
Theorem C75_empty_entry : forall d typ,
  (~ counts_false (entry d typ) -> get_storage_conf (VDict d) typ = Ok (entry d typ)) /\
  (d <> [] -> counts_false (entry d typ) -> typ <> u "default" -> get_storage_conf (VDict d) typ = Ok (entry d (u "default"))) /\
  (d <> [] -> counts_false (entry d (u "default")) -> get_storage_conf (VDict d) (u "default") = Err EConfigurationError).
Proof. exact c75_conf. Qed.
Print Assumptions C75_empty_entry.

(** C75: so is a handler. *)
Theorem C75_empty_handler : forall d key own e c, entry d key = own ->
  (~ counts_false own /\ e = own \/ counts_false own /\ key <> u "default" /\ e = entry d (u "default")) -> d <> [] -> e = VDict c -> c <> [] ->
  (counts_false (entry c (u "handler")) -> init_storage (VDict d) key = Err EConfigurationError) /\
  (~ counts_false (entry c (u "handler")) -> init_storage (VDict d) key = Ok (Handler (entry c (u "handler")) (ddel c (u "handler")))).
Proof. exact c75_init. Qed.
Print Assumptions C75_empty_handler.

Example C75_empty_case : let h := VDict [(u "handler", VStr (u "mem")); (u "label", VStr (u "x"))] in
  get_storage_conf (VDict [(u "keyjar", VDict []); (u "default", h)]) (u "keyjar") = Ok h /\ counts_false (entry [(u "keyjar", VDict []); (u "default", h)] (u "keyjar")) /\
  init_storage (VDict [(u "keyjar", VInt 0); (u "default", h)]) (u "keyjar") = Ok (Handler (VStr (u "mem")) [(u "label", VStr (u "x"))]) /\
  init_storage (VDict [(u "default", VDict [(u "handler", VStr [])])]) (u "keyjar") = Err EConfigurationError.
Proof. intro h. split; [vm_compute; reflexivity|]. split; [apply truthy_false; vm_compute; reflexivity|]. vm_compute. split; reflexivity. Qed.
