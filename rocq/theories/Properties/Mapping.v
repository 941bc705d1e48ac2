(** C108, C109: the mapping methods that messages inherit. *)
From Coq Require Import List NArith ZArith Bool String.
From Verif Require Import Base.Ustr Model.Cls Model.Value Model.Pspec Model.Tables Model.Message Model.Mapping
  Spec.MessageSpec Spec.RoundTripSpec Spec.MappingSpec Proofs.MappingLemmas.
Import ListNotations.
Open Scope list_scope.
Open Scope N_scope.

(** C108: each history of operations on a message, those of MutableMapping included, is a history of the
    insertion-ordered map: same outputs, same order of keys. *)
Theorem C108_ordered_maps : forall C os d d' rs, NoDup (map fst d) ->
  (forall k v, In (XSet k v) os \/ In (XSetdefault k v) os -> ~ In k (map fst (cd_param C))) ->
  xruns C d os = (d', rs) -> oruns (map fst d, dget d) os (map fst d', dget d') rs /\ NoDup (map fst d').
Proof. exact c108. Qed.
Print Assumptions C108_ordered_maps.

Example C108_case :
  let C := cdef C_oauth2_AuthorizationRequest in
  let os := [XSet (u "x") (VInt 1); XUpdate [(u "y", VInt 2); (u "x", VInt 3); (u "state", VStr (u "s"))]; XKeys;
             XPop (u "y") None; XPop (u "y") None; XPop (u "y") (Some (VInt 0)); XSetdefault (u "x") (VInt 9); XSetdefault (u "y") (VInt 4);
             XItems; XPopitem; XValues; XIn (u "x"); XClear; XLen; XPopitem] in
  (forall k v, In (XSet k v) os \/ In (XSetdefault k v) os -> ~ In k (map fst (cd_param C))) /\
  xruns C [] os = ([],
    [PNone; PNone; PKeys [u "x"; u "y"; u "state"];
     PVal (VInt 2); PExn EKeyError; PVal (VInt 0); PVal (VInt 3); PVal (VInt 4);
     PPairs [(u "x", VInt 3); (u "state", VStr (u "s")); (u "y", VInt 4)]; PPair (u "x") (VInt 3);
     PVals [VStr (u "s"); VInt 4]; PBool false; PNone; PNat 0; PExn EKeyError]).
Proof.
  cbv zeta. split; [|vm_compute; reflexivity]. intros k v [H|H].
  all: repeat (destruct H as [H|H]; [try discriminate H; injection H as <- _; apply ValueLemmas.dget_None; vm_compute; reflexivity|]).
  all: destruct H.
Qed.

(** C109: setdefault does not in general return what it stored: __setitem__ converts values of declared
    parameters, and keeps empty lists out ... *)
Theorem C109_setdefault_refuted :
  (exists c k v d w, m_setdefault (cdef c) [] k v = (d, Ok v) /\ dget d k = Some w /\ w <> v) /\
  (exists c k v d, m_setdefault (cdef c) [] k v = (d, Ok v) /\ dget d k = None).
Proof.
  split.
  - exists C_oidc_AuthorizationRequest, (u "scope"), (VStr (u "openid profile")),
      [(u "scope", VList [VStr (u "openid"); VStr (u "profile")])], (VList [VStr (u "openid"); VStr (u "profile")]).
    split; [vm_compute; reflexivity|]. split; [reflexivity|discriminate].
  - exists C_oidc_AuthorizationRequest, (u "scope"), (VList []), []. vm_compute. split; reflexivity.
Qed.
Print Assumptions C109_setdefault_refuted.

(** ... but does for parameters that are there, for undeclared ones, and for values of the declared kind. *)
Theorem C109_setdefault_partial : forall C d k v,
  (forall w, dget d k = Some w -> m_setdefault C d k v = (d, Ok w)) /\
  (dget d k = None -> (dget (cd_param C) k = None \/ exists s, dget (cd_param C) k = Some s /\ plain (Some s) v) ->
     exists d', m_setdefault C d k v = (d', Ok v) /\ forall x, dget d' x = aset (dget d) k (Some v) x).
Proof. exact c109. Qed.
Print Assumptions C109_setdefault_partial.

Example C109_case :
  plain (dget (cd_param (cdef C_oidc_AuthorizationRequest)) (u "state")) (VStr (u "abc")) /\
  m_setdefault (cdef C_oidc_AuthorizationRequest) [] (u "state") (VStr (u "abc")) = ([(u "state", VStr (u "abc"))], Ok (VStr (u "abc"))).
Proof. split; [|vm_compute; reflexivity]. apply PlStr; [vm_compute; reflexivity..|discriminate]. Qed.
