(** A sample history of a context. *)
From Coq Require Import List NArith ZArith Bool String.
From Verif Require Import Base.Ustr Model.Cls Model.Value Model.Pspec Model.Tables Model.Message Model.Context Model.FileStore
  Spec.JsonSpec Spec.StorageSpec Spec.ContextSpec Proofs.Deciders Proofs.StorageMore Proofs.StorageSamples Proofs.RoundTripSamples.
Import ListNotations.
Open Scope list_scope.
Open Scope N_scope.

Definition cx_message : value := VMsg C_oidc_AuthorizationRequest
  [(u "response_type", VList [VStr (u "code"); VStr (u "id_token")]); (u "client_id", VStr (u "a&b")); (u "scope", VList [VStr (u "openid")])].
Definition cx_dict : dict value :=
  [(u "response_type", VStr (u "code id_token")); (u "client_id", VStr (u "a&b")); (u "scope", VStr (u "openid"))].
Definition cx_history : list cop :=
  [CSet (u "seed") (VStr [233; 33]); CSet (u "n") (VInt 3); CGet (u "other"); CSet (u "req") cx_message; CSet (u "n") (VInt 4); CGet (u "n")].

Lemma cx_legal : Forall (clegal jconf) cx_history.
Proof.
  assert (G : forall k v w, kept v = Some w -> plainb k = true -> jsonb w = true -> clegal jconf (CSet k v)).
  { intros k v w E Hk Hw. split; [apply plainb_ok; exact Hk|]. intros x Hx. rewrite E in Hx. injection Hx as <-. exists w.
    apply json_storable; [reflexivity|reflexivity|]. apply jsonb_ok. exact Hw. }
  assert (F : forall k, plainb k = true -> clegal jconf (CGet k)) by (intros k Hk; apply plainb_ok; exact Hk).
  unfold cx_history. constructor; [|constructor; [|constructor; [|constructor; [|constructor; [|constructor; [|constructor]]]]]].
  - apply (G _ _ (VStr [233; 33])); vm_compute; reflexivity.
  - apply (G _ _ (VInt 3)); vm_compute; reflexivity.
  - apply F; vm_compute; reflexivity.
  - apply (G _ _ (VDict cx_dict)); vm_compute; reflexivity.
  - apply (G _ _ (VInt 4)); vm_compute; reflexivity.
  - apply F; vm_compute; reflexivity.
Qed.

(** a resource descriptor is set, and the process ends *)
Definition cx_world : world :=
  match ctx_set (DbFile jconf w0 s_new) (u "who/x@y") (VMsg C_oidc_JRD rt_jrd) with (DbFile _ W _, Ok _) => W | _ => w0 end.
Definition cx_stored : dict value := match to_dict (cdef C_oidc_JRD) rt_jrd with Ok r => r | Err _ => [] end.
Lemma cx_rebuilt : exists r, reading jconf cx_world (u "who/x@y") = Ok (VDict r) /\
    from_dict (cdef C_oidc_JRD) (cd_default (cdef C_oidc_JRD)) (VDict r) = (rt_jrd, Ok tt).
Proof. exists cx_stored. split; vm_compute; reflexivity. Qed.
