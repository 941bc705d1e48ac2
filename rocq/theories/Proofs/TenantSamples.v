(** Two issuers for the examples. *)
From Coq Require Import List NArith ZArith Bool String Lia Arith.
From Verif Require Import Base.Ustr Base.UstrLemmas Base.Percent Model.Cls Model.Value Model.Json Model.Converter Model.Config Model.Tenants
  Spec.CodecSpec Spec.JsonSpec Spec.StorageSpec Spec.TenantSpec Proofs.ValueLemmas Proofs.Deciders Proofs.CodecLemmas Proofs.StorageSamples Model.FileStore.
Import ListNotations.
Open Scope list_scope.
Open Scope N_scope.

Definition two (i : nat) : Prop := i = 0%nat \/ i = 1%nat.
Definition te_iss (i : nat) : ustr := match i with O => u "https://a" | _ => u "https://b" end.
Definition te_dir (i : nat) : ustr := match i with O => u "/srv/db/https%3A%2F%2Fa" | _ => u "/srv/db/https%3A%2F%2Fb" end.
Definition te_world : world :=
  mkW [(u "/srv/passwd", (u "root", 1))] [u "/srv"; u "/srv/db"; te_dir 0; te_dir 1] (u "/srv") 10.
Definition te_section (fdir : string) : value :=
  VDict [(u "handler", VStr (u "oidcmsg.storage.abfile.AbstractFileSystem")); (u "fdir", VStr (u fdir))].
Definition te_db : dict value := [(u "abstract_storage_cls", VStr (u "x")); (u "default", te_section "db/{issuer}")].
Definition te_plain_db : dict value := [(u "default", te_section "db")].
Definition te_conf (i : nat) : conf :=
  mkC (match i with O => u "db/https%3A%2F%2Fa" | _ => u "db/https%3A%2F%2Fb" end) json_conv_serialize json_conv_deserialize.
Definition te_history : list (nat * op) :=
  [(0%nat, OSet (u "k") (num 1)); (1%nat, OSet (u "k") (num 2)); (1%nat, OSet (u "m") (num 3)); (0%nat, OKeys); (1%nat, ODel (u "m"))].

Lemma te_per_issuer : per_issuer te_db (u "db").
Proof.
  constructor.
  - apply nodupb_ok. vm_compute. reflexivity.
  - intros k v [H|[H|[]]]; injection H as <- <-; [left; reflexivity|right; eexists; reflexivity].
  - eexists _, _. split; [reflexivity|]. split; [reflexivity|]. split; [discriminate|reflexivity].
  - split; [discriminate|]. split; vm_compute; intuition discriminate.
Qed.
Lemma te_names : forall i, two i -> issuer_name (te_iss i).
Proof. intros i [->| ->]; (split; [apply encodable_iff; vm_compute; reflexivity|repeat split; discriminate]). Qed.
Lemma te_apart : forall i j, two i -> two j -> i <> j -> te_iss i <> te_iss j.
Proof. intros i j [->| ->] [->| ->] H; try congruence; discriminate. Qed.
Lemma te_empty : forall i q, two i -> quote_plus (te_iss i) = Some q ->
  In (u "/srv/db" ++ u "/" ++ q) (w_dirs te_world) /\ flat te_world (u "/srv/db" ++ u "/" ++ q) /\ no_files te_world (u "/srv/db" ++ u "/" ++ q).
Proof.
  intros i q Hi Hq. assert (E : u "/srv/db" ++ u "/" ++ q = te_dir i).
  { destruct Hi as [->| ->]; vm_compute in Hq; injection Hq as <-; reflexivity. }
  rewrite E. split; [destruct Hi as [->| ->]; cbn; tauto|]. split.
  - intros n H. destruct Hi as [->| ->]; vm_compute in H; decompose [or] H; try discriminate; try contradiction.
  - intros p (n & -> & _). destruct Hi as [->| ->]; reflexivity.
Qed.
Lemma te_legal : Forall (fun e => two (fst e) /\ legal (te_conf (fst e)) (snd e)) te_history.
Proof.
  apply Forall_forall. intros e He. split; [cbn in He; unfold two; decompose [or] He; subst; auto; contradiction|].
  exact (legalb_ok (snd e) (proj1 (forallb_forall (fun e : nat * op => legalb (snd e)) te_history) eq_refl e He)).
Qed.
Definition te_shared : conf := mkC (u "db") json_conv_serialize json_conv_deserialize.
Definition te_after : world * st * outcome := exec te_shared w0 s_new (OSet (u "k") (num 1)).
Lemma te_files : forall i, two i -> ctx_files json_conv_serialize json_conv_deserialize (config_of te_db (te_iss i)) = Ok (te_conf i).
Proof.
  intros i Hi. unfold te_conf. generalize json_conv_serialize json_conv_deserialize. intros s t.
  destruct Hi as [->| ->]; vm_compute; reflexivity.
Qed.
Lemma te_files_shared : forall i, two i -> ctx_files json_conv_serialize json_conv_deserialize (config_of te_plain_db (te_iss i)) = Ok te_shared.
Proof.
  intros i Hi. unfold te_shared. generalize json_conv_serialize json_conv_deserialize. intros s t.
  destruct Hi as [->| ->]; vm_compute; reflexivity.
Qed.
