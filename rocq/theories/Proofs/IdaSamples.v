(** Samples used by the identity assurance properties. *)
From Coq Require Import List NArith ZArith Bool String.
From Verif Require Import Base.Ustr Model.Cls Model.Value Model.Pspec Model.Tables Model.Message Model.IdentityAssurance Model.Calendar
  Spec.IdaSpec Proofs.IdaLemmas.
Import ListNotations.
Open Scope list_scope.
Open Scope N_scope.

(** evidence of type id_document that satisfies the table of IdDocument, and the instance made from it *)
Definition id_evidence : dict value := [(u "type", VStr (u "id_document")); (u "method", VStr (u "pipp"));
  (u "verifier", VDict [(u "organization", VStr (u "Deutsche Post")); (u "txn", VStr (u "1aa05779"))])].
Definition id_doc : dict value := [(u "type", VStr (u "id_document")); (u "method", VStr (u "pipp"));
  (u "verifier", VMsg C_ida_Verifier [(u "organization", VStr (u "Deutsche Post")); (u "txn", VStr (u "1aa05779"))])].
Lemma id_doc_built : construct (cdef C_ida_IdDocument) id_evidence = Ok id_doc.
Proof. vm_compute. reflexivity. Qed.
Lemma id_doc_loops : forall fuel, evidence_verify fuel C_ida_IdDocument id_doc = (id_doc, Err OutOfFuel).
Proof.
  induction fuel as [|fuel IH]; [reflexivity|]. cbn [evidence_verify].
  replace (to_dict (cdef C_ida_IdDocument) id_doc) with (@Ok (dict value) id_evidence) by (vm_compute; reflexivity).
  change (truthy (get id_doc (u "type") VNone)) with true. cbv iota.
  change (find (fun e => py_eq (get id_doc (u "type") VNone) (VStr (fst e))) evidence_types) with (Some (u "id_document", C_ida_IdDocument)).
  cbv iota. cbn [bind]. rewrite id_doc_built. cbn [bind]. rewrite IH. reflexivity.
Qed.
Lemma id_evidence_loops : forall fuel, evidence_verify fuel C_ida_Evidence id_evidence = (id_evidence, Err OutOfFuel).
Proof.
  intros [|fuel]; [reflexivity|]. cbn [evidence_verify].
  replace (to_dict (cdef C_ida_Evidence) id_evidence) with (@Ok (dict value) id_evidence) by (vm_compute; reflexivity).
  change (truthy (get id_evidence (u "type") VNone)) with true. cbv iota.
  change (find (fun e => py_eq (get id_evidence (u "type") VNone) (VStr (fst e))) evidence_types) with (Some (u "id_document", C_ida_IdDocument)).
  cbv iota. cbn [bind]. rewrite id_doc_built. cbn [bind]. rewrite id_doc_loops. reflexivity.
Qed.

(** a claims request of identity assurance *)
Definition ida_element : value := VDict [(u "trust_framework", VNone); (u "time", VDict [(u "essential", VBool true)]);
  (u "evidence", VList [VDict [(u "type", VDict [(u "value", VStr (u "id_document")); (u "purpose", VStr (u "to know you"))])]])].
Definition ida_request_sample : dict value := [(u "verification", ida_element);
  (u "claims", VDict [(u "given_name", VNone); (u "birthdate", VDict [(u "essential", VBool true)])])].
