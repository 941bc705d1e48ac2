(** C120: contexts of several issuers. *)
From Coq Require Import List NArith ZArith Bool String.
From Verif Require Import Base.Ustr Base.Percent Model.Cls Model.Value Model.Json Model.Converter Model.Config Model.Tenants
  Spec.CodecSpec Spec.StorageSpec Spec.TenantSpec Proofs.StorageSamples Proofs.TenantLemmas Proofs.TenantSamples Model.FileStore.
Import ListNotations.
Open Scope list_scope.
Open Scope N_scope.

(** C120: contexts of different issuers [iss i], made of one configuration whose directory ends in "/{issuer}": whatever
    they do in whatever order, each is answered by what it wrote itself. *)
Theorem C120_issuers_partial : forall ser deser db base B (iss : nat -> ustr) (T : nat -> Prop) W,
  per_issuer db base -> (forall i, T i -> issuer_name (iss i)) -> (forall i j, T i -> T j -> i <> j -> iss i <> iss j) ->
  dir_at W base = Some B -> NoDup (map fst (w_files W)) ->
  (forall i q, T i -> quote_plus (iss i) = Some q ->
     In (B ++ u "/" ++ q) (w_dirs W) /\ flat W (B ++ u "/" ++ q) /\ no_files W (B ++ u "/" ++ q)) ->
  exists C : nat -> conf, (forall i, T i -> ctx_files ser deser (config_of db (iss i)) = Ok (C i)) /\
    forall i h o W' P' rs W'' S'' r,
    Forall (fun e => T (fst e) /\ legal (C (fst e)) (snd e)) h -> T i -> legal (C i) o ->
    trun C W (fun _ => s_new) h = (W', P', rs) -> exec (C i) W' (P' i) o = (W'', S'', r) ->
    answers (fun k => latest k (part i h)) o r.
Proof. exact issuers. Qed.
Print Assumptions C120_issuers_partial.

Example C120_case : per_issuer te_db (u "db") /\ dir_at te_world (u "db") = Some (u "/srv/db") /\
  Forall (fun e => two (fst e) /\ legal (te_conf (fst e)) (snd e)) te_history /\
  (forall i, two i -> ctx_files json_conv_serialize json_conv_deserialize (config_of te_db (te_iss i)) = Ok (te_conf i)) /\
  let '(W', P', _) := trun te_conf te_world (fun _ => s_new) te_history in
  snd (exec (te_conf 0) W' (P' 0%nat) (OGet (u "k"))) = RVal (Ok (num 1)) /\
  snd (exec (te_conf 1) W' (P' 1%nat) (OGet (u "k"))) = RVal (Ok (num 2)) /\
  snd (exec (te_conf 1) W' (P' 1%nat) OItems) = RItems (Ok [(u "k", num 2)]).
Proof.
  split; [exact te_per_issuer|]. split; [vm_compute; reflexivity|]. split; [exact te_legal|].
  split; [exact te_files|]. vm_compute. repeat split; reflexivity.
Qed.

(** Without the placeholder the issuer that add_issuer put into the configuration has no effect: what one context writes
    another one reads. *)
Theorem C120_issuers_refuted : exists db C W k v W' S', te_iss 0 <> te_iss 1 /\
  ctx_files json_conv_serialize json_conv_deserialize (config_of db (te_iss 0)) = Ok C /\
  ctx_files json_conv_serialize json_conv_deserialize (config_of db (te_iss 1)) = Ok C /\
  placed C W StorageSamples.db /\ flat W StorageSamples.db /\ no_files W StorageSamples.db /\
  exec C W s_new (OSet k v) = (W', S', RUnit (Ok tt)) /\ snd (exec C W' s_new (OGet k)) = RVal (Ok v).
Proof.
  exists te_plain_db, te_shared, w0, (u "k"), (num 1), (fst (fst te_after)), (snd (fst te_after)).
  split; [discriminate|]. split; [apply te_files_shared; left; reflexivity|]. split; [apply te_files_shared; right; reflexivity|].
  split; [split; [discriminate|vm_compute; reflexivity]|]. split; [exact w0_flat|]. split; [exact w0_no_files|].
  split; [|vm_compute; reflexivity]. change (te_after = (fst (fst te_after), snd (fst te_after), RUnit (Ok tt))).
  assert (H : snd te_after = RUnit (Ok tt)) by (vm_compute; reflexivity). rewrite <- H. destruct te_after as [[? ?] ?]. reflexivity.
Qed.
Print Assumptions C120_issuers_refuted.
