(** C14, C15, C16: messages as maps. *)
From Coq Require Import List NArith ZArith Bool String.
From Verif Require Import Base.Ustr Model.Cls Model.Value Model.Pspec Model.Tables Model.Message Model.History
  Spec.MessageSpec Spec.ClassSpec Proofs.MessageLemmas Proofs.ClassNames Proofs.EncodeLemmas Proofs.Deciders.
Import ListNotations.
Open Scope list_scope.
Open Scope N_scope.

(** C14: weed() and extra() split a message, rm_blanks() removes the empty values. *)
Theorem C14_weed : forall C d k v, NoDup (map fst d) ->
  (dget (weed C d) k = Some v <-> dget d k = Some v /\ In k (map fst (cd_param C))).
Proof. exact c14_weed. Qed.
Print Assumptions C14_weed.

Theorem C14_extra : forall C d k v, NoDup (map fst d) ->
  (dget (extra C d) k = Some v <-> dget d k = Some v /\ ~ In k (map fst (cd_param C))).
Proof. exact c10_extra. Qed.
Print Assumptions C14_extra.

Theorem C14_rm_blanks : forall d k v, NoDup (map fst d) ->
  (dget (rm_blanks d) k = Some v <-> dget d k = Some v /\ ~ empty_value v).
Proof. exact c14_rm_blanks. Qed.
Print Assumptions C14_rm_blanks.

Theorem C14_only_extras : forall C d,
  only_extras C d = true <-> (forall k, In k (map fst d) -> ~ In k (map fst (cd_param C))).
Proof. exact c14_only_extras. Qed.
Print Assumptions C14_only_extras.

Theorem C14_idempotent : forall C d, NoDup (map fst d) ->
  weed C (weed C d) = weed C d /\ rm_blanks (rm_blanks d) = rm_blanks d.
Proof. exact c14_idem. Qed.
Print Assumptions C14_idempotent.

Example C14_case :
  let C := cdef C_oauth2_AuthorizationRequest in
  let d := [(u "x", VInt 0); (u "state", VStr (u "s")); (u "y", VList [VNone]); (u "scope", VList [])] in
  NoDup (map fst d) /\
  weed C d = [(u "state", VStr (u "s")); (u "scope", VList [])] /\
  extra C d = [(u "x", VInt 0); (u "y", VList [VNone])] /\
  rm_blanks d = [(u "state", VStr (u "s")); (u "y", VList [VNone])] /\
  only_extras C d = false /\ only_extras C (extra C d) = true.
Proof.
  cbv zeta. split; [apply nodupb_ok; vm_compute; reflexivity|]. repeat split; vm_compute; reflexivity.
Qed.

(** C15: message equality is an equivalence; two messages are equal exactly if they have the
    same class name and for each key equal values or both none. *)
Theorem C15_reflexive : forall C d, wfv (VDict d) -> msg_eq C C d d = true.
Proof. exact c15_refl. Qed.
Print Assumptions C15_reflexive.

Theorem C15_symmetric : forall C1 C2 d1 d2, wfv (VDict d1) -> wfv (VDict d2) -> msg_eq C1 C2 d1 d2 = true ->
  msg_eq C2 C1 d2 d1 = true.
Proof. exact c15_sym. Qed.
Print Assumptions C15_symmetric.

Theorem C15_transitive : forall C1 C2 C3 d1 d2 d3, wfv (VDict d1) -> wfv (VDict d2) ->
  msg_eq C1 C2 d1 d2 = true -> msg_eq C2 C3 d2 d3 = true -> msg_eq C1 C3 d1 d3 = true.
Proof. exact c15_trans. Qed.
Print Assumptions C15_transitive.

Theorem C15_content : forall C1 C2 d1 d2, NoDup (map fst d1) -> NoDup (map fst d2) ->
  (msg_eq C1 C2 d1 d2 = true <->
   cd_name C1 = cd_name C2 /\
   forall k, match dget d1 k, dget d2 k with
             | Some x, Some y => py_eq x y = true
             | None, None => True
             | _, _ => False
             end).
Proof. exact msg_eq_content. Qed.
Print Assumptions C15_content.

(** The classes of the library that can be equal in this sense. *)
Theorem C15_classes : forall c1 c2, cd_name (cdef c1) = cd_name (cdef c2) <-> c1 = c2 \/ exists g, In g namesakes /\ In c1 g /\ In c2 g.
Proof. exact class_names. Qed.
Print Assumptions C15_classes.

Example C15_case :
  let C := cdef C_oauth2_AuthorizationRequest in
  let a := VDict [(u "p", VInt 1); (u "q", VList [VStr (u "x")])] in
  let b := VDict [(u "q", VList [VStr (u "x")]); (u "p", VBool true)] in
  let d1 := [(u "state", VStr (u "s")); (u "x", a)] in
  let d2 := [(u "x", b); (u "state", VStr (u "s"))] in
  wfv (VDict d1) /\ wfv (VDict d2) /\ msg_eq C C d1 d2 = true /\
  msg_eq C C d1 [(u "x", b); (u "state", VStr (u "S"))] = false.
Proof.
  cbv zeta. split; [|split]; [| |split; vm_compute; reflexivity];
    repeat (first [apply conj | exact I | apply nodupb_ok; vm_compute; reflexivity | progress simpl]).
Qed.

(** C16: each history of operations on a message is a history of the abstract map, and no
    key ever occurs twice. *)
Theorem C16_messages_are_maps : forall C os d d' rs, NoDup (map fst d) ->
  (forall k v, In (OSet k v) os -> ~ In k (map fst (cd_param C))) ->
  mruns C d os = (d', rs) ->
  aruns (fun k => dget d k) os (fun k => dget d' k) rs /\ NoDup (map fst d').
Proof. exact c16. Qed.
Print Assumptions C16_messages_are_maps.

Example C16_case :
  let C := cdef C_oauth2_AuthorizationRequest in
  let os := [OSet (u "x") (VInt 1); OSet (u "x") VNone; ODel (u "y"); OUpdate [(u "y", VInt 2); (u "x", VInt 3)];
             OItem (u "x"); ODel (u "x"); OItem (u "x"); OIn (u "x"); OLen; OKeys; OGet (u "x") (VInt 9)] in
  (forall k v, In (OSet k v) os -> ~ In k (map fst (cd_param C))) /\
  mruns C [] os = ([(u "y", VInt 2)],
    [RNone; RNone; RExn EKeyError; RNone; RVal (VInt 3); RNone; RExn EKeyError; RBool false; RNat 1; RKeys [u "y"]; RVal (VInt 9)]).
Proof.
  cbv zeta. split; [|vm_compute; reflexivity]. intros k v H.
  repeat (destruct H as [H|H]; [try discriminate H; injection H as <- _; apply ValueLemmas.dget_None; vm_compute; reflexivity|]).
  destruct H.
Qed.
