(** C115, C116: what is put in an OidcContext comes back. *)
From Coq Require Import List NArith ZArith Bool String.
From Verif Require Import Base.Ustr Model.Cls Model.Value Model.Pspec Model.Tables Model.Message Model.Converter Model.FileStore Model.Sql Model.Context
  Spec.MessageSpec Spec.RoundTripSpec Spec.StorageSpec Spec.ContextSpec Proofs.RoundTripSamples Proofs.StorageSamples Proofs.ContextLemmas Proofs.ContextSamples.
Import ListNotations.
Open Scope list_scope.
Open Scope N_scope.

(** C115: in memory *)
Theorem C115_memory : forall L h k, let b := fst (ctx_run (DbMem L []) h) in
  told k (match clatest k h with Some w => w | None => VNone end) (snd (ctx_get b k)) /\
  forall v, snd (ctx_set b k v) = Ok tt <-> kept v <> None.
Proof. exact memory. Qed.
Print Assumptions C115_memory.

Example C115_memory_case : let b := fst (ctx_run (DbMem (mem_label (u "default")) []) cx_history) in
  snd (ctx_get b (u "seed")) = Ok (GBytes [195; 169; 33]) /\ snd (ctx_get b (u "n")) = Ok (GVal (VInt 4)) /\
  snd (ctx_get b (u "req")) = Ok (GVal (VDict cx_dict)) /\ snd (ctx_get b (u "other")) = Ok (GVal VNone).
Proof. vm_compute. repeat split; reflexivity. Qed.

(** C115: in files *)
Theorem C115_files : forall C D W h k, placed C W D -> flat W D -> no_files W D -> NoDup (map fst (w_files W)) ->
  Forall (clegal C) h -> plain_key k -> let b := fst (ctx_run (DbFile C W s_new) h) in
  match clatest k h with
  | Some w => told k w (snd (ctx_get b k))
  | None => snd (ctx_get b k) = Err EKeyError
  end /\ forall v, clegal C (CSet k v) -> snd (ctx_set b k v) = Ok tt <-> kept v <> None.
Proof. exact files. Qed.
Print Assumptions C115_files.

Example C115_files_case : (placed jconf w0 db /\ flat w0 db /\ no_files w0 db /\ NoDup (map fst (w_files w0))) /\
  Forall (clegal jconf) cx_history /\ let b := fst (ctx_run (DbFile jconf w0 s_new) cx_history) in
  snd (ctx_get b (u "seed")) = Ok (GBytes [195; 169; 33]) /\ snd (ctx_get b (u "n")) = Ok (GVal (VInt 4)) /\
  snd (ctx_get b (u "req")) = Ok (GVal (VDict cx_dict)) /\ snd (ctx_get b (u "other")) = Err EKeyError.
Proof.
  split; [exact (conj (proj1 w0_placed) (conj w0_flat (conj w0_no_files w0_nodup)))|]. split; [exact cx_legal|].
  vm_compute. repeat split; reflexivity.
Qed.

(** C115: with storage in a table nothing that was set can be got: the class has no __getitem__. *)
Theorem C115_table_refuted : forall q k t, exists q', ctx_set (DbSql q) k (VStr t) = (DbSql q', Ok tt) /\ sql_get q' k = VStr t /\
  snd (ctx_get (DbSql q') k) = Err ETypeError.
Proof. exact table. Qed.
Print Assumptions C115_table_refuted.

(** C116: messages, after a restart *)
Theorem C116_rebuilt : forall C cl m D W P k, c_ser C = json_conv_serialize -> c_deser C = json_conv_deserialize ->
  content canon (cd_param (cdef cl)) m -> covers_defaults (cdef cl) m -> placed C W D -> flat W D -> plain_key k ->
  exists W' P' r m', ctx_set (DbFile C W P) k (VMsg cl m) = (DbFile C W' P', Ok tt) /\ reading C W' k = Ok (VDict r) /\
    from_dict (cdef cl) (cd_default (cdef cl)) (VDict r) = (m', Ok tt) /\ forall n, dget m' n = dget m n.
Proof. exact rebuilt. Qed.
Print Assumptions C116_rebuilt.

Example C116_case : content canon (cd_param (cdef C_oidc_JRD)) rt_jrd /\ covers_defaults (cdef C_oidc_JRD) rt_jrd /\ plain_key (u "who/x@y") /\
  placed jconf w0 db /\ flat w0 db /\
  exists r, reading jconf cx_world (u "who/x@y") = Ok (VDict r) /\
    from_dict (cdef C_oidc_JRD) (cd_default (cdef C_oidc_JRD)) (VDict r) = (rt_jrd, Ok tt).
Proof.
  split; [exact rt_jrd_canon|]. split; [intros k []|]. split; [apply plainb_ok; vm_compute; reflexivity|].
  split; [exact (proj1 w0_placed)|]. split; [exact w0_flat|]. exact cx_rebuilt.
Qed.
