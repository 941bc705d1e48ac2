(** Contexts: what was set is got. *)
From Coq Require Import List NArith ZArith Bool String.
From Verif Require Import Base.Ustr Base.UstrLemmas Base.Utf8 Model.Cls Model.Value Model.Pspec Model.Tables Model.Message Model.Converter Model.FileStore
  Model.Labeled Model.Sql Model.Context Spec.MessageSpec Spec.RoundTripSpec Spec.JsonSpec Spec.StorageSpec Spec.ContextSpec Proofs.ValueLemmas
  Proofs.RoundTrip Proofs.StorageHistory Proofs.StorageMore Proofs.LabeledLemmas Proofs.SqlLemmas.
From Verif Require Import Model.FileStore.
Import ListNotations.
Open Scope list_scope.
Open Scope N_scope.

(** ** get *)
Lemma told_get : forall b b' k w, db_item b k = (b', Ok w) -> told k w (snd (ctx_get b k)).
Proof.
  intros b b' k w H. unfold ctx_get. rewrite H. cbn [snd]. unfold told. destruct (ueqb k (u "seed")) eqn:E.
  - apply ueqb_eq in E. split; [congruence|]. split; [|split].
    + intros _ s x -> Hs. rewrite Hs. reflexivity.
    + intros _ s -> Hs. rewrite Hs. reflexivity.
    + intros _ Hs. destruct w; try reflexivity. destruct (Hs s eq_refl).
  - assert (k <> u "seed") by (intros ->; rewrite ueqb_refl in E; discriminate).
    split; [reflexivity|]. split; [|split]; congruence.
Qed.
Lemma ctx_get_state : forall b k, fst (ctx_get b k) = fst (db_item b k).
Proof. intros b k. unfold ctx_get. destruct (db_item b k) as [b' [v|e]]; reflexivity. Qed.
Lemma ctx_set_kept : forall b k v, ctx_set b k v =
  match kept v with Some w => db_set b k w | None => (b, match v with VMsg c m => match to_dict (cdef c) m with Err e => Err e | _ => Ok tt end | _ => Ok tt end) end.
Proof. intros b k v. destruct v; try reflexivity. cbn [ctx_set kept]. destruct (to_dict (cdef c) d); reflexivity. Qed.
Lemma kept_err : forall b k v, kept v = None -> exists e, ctx_set b k v = (b, Err e).
Proof.
  intros b k v H. destruct v; try discriminate. cbn [ctx_set kept] in *. destruct (to_dict (cdef c) d); [discriminate|]. eexists. reflexivity.
Qed.

(** ** in memory *)
Definition tr_mem (o : cop) : list dop :=
  match o with CSet k v => match kept v with Some w => [DSet k w] | None => [] end | CGet k => [DItem k] end.
Lemma ld_run_app : forall L h1 h2 d, fst (ld_run L d (h1 ++ h2)) = fst (ld_run L (fst (ld_run L d h1)) h2).
Proof.
  intros L h1 h2. induction h1 as [|o h1 IH]; intro d; [reflexivity|]. cbn [app ld_run].
  destruct (ld_exec L d o) as [d1 r]. specialize (IH d1). destruct (ld_run L d1 (h1 ++ h2)), (ld_run L d1 h1). exact IH.
Qed.
Lemma mem_run : forall L h d, fst (ctx_run (DbMem L d) h) = DbMem L (fst (ld_run L d (flat_map tr_mem h))).
Proof.
  intros L h. induction h as [|o h IH]; intro d; [reflexivity|]. cbn [flat_map]. rewrite ld_run_app. destruct o as [k v|k].
  - cbn [ctx_run tr_mem]. rewrite ctx_set_kept. destruct (kept v) as [w|].
    + cbn [db_set ld_exec ld_run fst]. rewrite <- IH. destruct (ctx_run (DbMem L (dset d (labelled L k) w)) h). reflexivity.
    + cbn [ld_run fst]. rewrite <- IH. destruct (ctx_run (DbMem L d) h). reflexivity.
  - cbn [ctx_run tr_mem]. pose proof (ctx_get_state (DbMem L d) k) as E. cbn [db_item ld_exec fst] in E.
    destruct (ctx_get (DbMem L d) k) as [b1 r]. cbn [fst] in E. subst b1. cbn [ld_run ld_exec fst]. rewrite <- IH.
    destruct (ctx_run (DbMem L d) h). reflexivity.
Qed.
Lemma mem_latest : forall k h a, fold_left (dafter k) (flat_map tr_mem h) a = fold_left (cafter k) h a.
Proof.
  intros k h. induction h as [|o h IH]; intro a; [reflexivity|]. cbn [flat_map fold_left]. rewrite fold_left_app, <- IH. f_equal.
  destruct o as [k' v|k']; [|reflexivity]. cbn [tr_mem cafter]. destruct (kept v); cbn [fold_left dafter]; [reflexivity|].
  destruct (ueq_dec k' k); reflexivity.
Qed.
Lemma memory : forall L h k, let b := fst (ctx_run (DbMem L []) h) in
  told k (match clatest k h with Some w => w | None => VNone end) (snd (ctx_get b k)) /\
  forall v, snd (ctx_set b k v) = Ok tt <-> kept v <> None.
Proof.
  intros L h k. cbv zeta. rewrite mem_run. split.
  - pose proof (labeled_dict L (flat_map tr_mem h) (DItem k)) as A. cbn [danswers] in A. unfold dlatest in A. rewrite mem_latest in A.
    fold (clatest k h) in A. set (d := fst (ld_run L [] (flat_map tr_mem h))) in *.
    apply (told_get _ (DbMem L d)). cbn [db_item ld_exec snd] in *. injection A as A. rewrite A. reflexivity.
  - intro v. destruct (kept v) as [w|] eqn:E.
    + rewrite ctx_set_kept, E. cbn [db_set ld_exec snd]. split; [discriminate|reflexivity].
    + destruct (kept_err (DbMem L (fst (ld_run L [] (flat_map tr_mem h)))) k v E) as [e He]. rewrite He. cbn [snd].
      split; [discriminate|congruence].
Qed.

(** ** in files *)
Definition tr_file (o : cop) : list (nat * op) :=
  match o with CSet k v => match kept v with Some w => [(O, OSet k w)] | None => [] end | CGet k => [(O, OGet k)] end.
Lemma run_app : forall C h1 h2 W P, run C W P (h1 ++ h2) =
  let '(W1, P1, r1) := run C W P h1 in let '(W2, P2, r2) := run C W1 P1 h2 in (W2, P2, r1 ++ r2).
Proof.
  intros C h1 h2. induction h1 as [|[i o] h1 IH]; intros W P; cbn [app run].
  - destruct (run C W P h2) as [[W2 P2] r2]. reflexivity.
  - destruct (exec C W (P i) o) as [[W1 S1] r]. rewrite IH. destruct (run C W1 (pset P i S1) h1) as [[W2 P2] r2].
    destruct (run C W2 P2 h2) as [[W3 P3] r3]. reflexivity.
Qed.
Lemma file_run : forall C h W P, exists W' P' rs, run C W P (flat_map tr_file h) = (W', P', rs) /\
  fst (ctx_run (DbFile C W (P O)) h) = DbFile C W' (P' O).
Proof.
  intros C h. induction h as [|o h IH]; intros W P; [exists W, P, []; split; reflexivity|]. cbn [flat_map]. rewrite run_app.
  destruct o as [k v|k].
  - cbn [tr_file ctx_run]. rewrite ctx_set_kept. destruct (kept v) as [w|].
    + unfold run at 1. unfold db_set. destruct (exec C W (P O) (OSet k w)) as [[W1 S1] r] eqn:Ex.
      destruct (IH W1 (pset P O S1)) as (W' & P' & rs & E1 & E2). cbv iota beta. rewrite E1.
      assert (exists r', r = RUnit r') as [r' ->].
      { cbn [exec] in Ex. destruct (set C (tick W) (P O) k w) as [[W2 S2] r2]. injection Ex as _ _ <-. eauto. }
      change (pset P O S1 O) with S1 in E2.
      destruct (ctx_run (DbFile C W1 S1) h) as [b2 rs2]. eexists _, _, _. split; [reflexivity|]. exact E2.
    + cbn [run]. destruct (IH W P) as (W' & P' & rs & E1 & E2). rewrite E1.
      destruct (ctx_run (DbFile C W (P O)) h) as [b2 rs2]. eexists _, _, _. split; [reflexivity|]. exact E2.
  - cbn [tr_file ctx_run]. pose proof (ctx_get_state (DbFile C W (P O)) k) as E. cbn [db_item] in E.
    unfold run at 1. destruct (exec C W (P O) (OGet k)) as [[W1 S1] r] eqn:Ex.
    assert (exists r', r = RVal r') as [r' ->].
    { cbn [exec] in Ex. destruct (getitem C (tick W) (P O) k) as [[W2 S2] r2]. injection Ex as _ _ <-. eauto. }
    destruct (ctx_get (DbFile C W (P O)) k) as [b1 r1]. cbn [fst] in E. subst b1.
    destruct (IH W1 (pset P O S1)) as (W' & P' & rs & E1 & E2). cbv iota beta. rewrite E1.
    change (pset P O S1 O) with S1 in E2.
    destruct (ctx_run (DbFile C W1 S1) h) as [b2 rs2]. eexists _, _, _. split; [reflexivity|]. exact E2.
Qed.
Lemma file_latest : forall k h a, option_map snd (fold_left (after_op k) (flat_map tr_file h) a) = fold_left (cafter k) h (option_map snd a).
Proof.
  intros k h. induction h as [|o h IH]; intro a; [reflexivity|]. cbn [flat_map fold_left]. rewrite fold_left_app, IH. f_equal.
  destruct o as [k' v|k']; [|reflexivity]. cbn [tr_file cafter]. destruct (kept v); cbn [fold_left after_op];
  destruct (ueq_dec k' k); reflexivity.
Qed.
Lemma file_legal : forall C h, Forall (clegal C) h -> Forall (fun e => fst e = O /\ legal C (snd e)) (flat_map tr_file h).
Proof.
  intros C h H. induction H as [|o h Ho _ IH]; cbn [flat_map]; [constructor|]. apply Forall_app. split; [|exact IH].
  destruct o as [k v|k]; cbn [tr_file clegal] in *.
  - destruct Ho as [Hk Hv]. destruct (kept v) as [w|]; [|constructor]. constructor; [|constructor]. cbn [fst snd legal].
    split; [reflexivity|]. split; [exact Hk|]. apply Hv. reflexivity.
  - constructor; [|constructor]. split; [reflexivity|exact Ho].
Qed.
Lemma files : forall C D W h k, placed C W D -> flat W D -> no_files W D -> NoDup (map fst (w_files W)) ->
  Forall (clegal C) h -> plain_key k -> let b := fst (ctx_run (DbFile C W s_new) h) in
  match clatest k h with
  | Some w => told k w (snd (ctx_get b k))
  | None => snd (ctx_get b k) = Err EKeyError
  end /\ forall v, clegal C (CSet k v) -> snd (ctx_set b k v) = Ok tt <-> kept v <> None.
Proof.
  intros C D W h k H1 H2 H3 H4 Hh Hk b.
  destruct (file_run C h W (fun _ => s_new)) as (W' & P' & rs & E1 & E2). fold b in E2. rewrite E2.
  pose proof (file_legal C h Hh) as Hl. split.
  - destruct (exec C W' (P' O) (OGet k)) as [[W'' S''] r] eqn:Ex.
    pose proof (one_process C D W O _ (OGet k) W' P' rs W'' S'' r H1 H2 H3 H4 Hl Hk E1 Ex) as A. cbn [answers] in A.
    pose proof (file_latest k h None) as F. cbn [option_map] in F. fold (clatest k h) in F. unfold latest in A.
    destruct (fold_left (after_op k) (flat_map tr_file h) None) as [[i w]|]; cbn [option_map snd] in F; rewrite <- F.
    + apply (told_get _ (DbFile C W'' S'')). cbn [db_item]. rewrite Ex, A. reflexivity.
    + unfold ctx_get. cbn [db_item]. rewrite Ex, A. reflexivity.
  - intros v Hv. destruct (kept v) as [w|] eqn:E.
    + rewrite ctx_set_kept, E. cbn [db_set]. destruct Hv as [_ Hv].
      destruct (exec C W' (P' O) (OSet k w)) as [[W'' S''] r] eqn:Ex.
      pose proof (one_process C D W O _ (OSet k w) W' P' rs W'' S'' r H1 H2 H3 H4 Hl (conj Hk (Hv w E)) E1 Ex) as A. cbn [answers] in A.
      rewrite A. cbn [snd]. split; [discriminate|reflexivity].
    + destruct (kept_err (DbFile C W' (P' O)) k v E) as [e He]. rewrite He. cbn [snd]. split; [discriminate|congruence].
Qed.

(** ** in a table *)
Lemma table : forall q k t, exists q', ctx_set (DbSql q) k (VStr t) = (DbSql q', Ok tt) /\ sql_get q' k = VStr t /\
  snd (ctx_get (DbSql q') k) = Err ETypeError.
Proof.
  intros q k t. exists (sql_set q k t). split; [reflexivity|]. split; [|reflexivity].
  exact (set_committed q k t).
Qed.

(** ** messages, after a restart *)
Lemma rebuilt : forall C cl m D W P k, c_ser C = json_conv_serialize -> c_deser C = json_conv_deserialize ->
  content canon (cd_param (cdef cl)) m -> covers_defaults (cdef cl) m -> placed C W D -> flat W D -> plain_key k ->
  exists W' P' r m', ctx_set (DbFile C W P) k (VMsg cl m) = (DbFile C W' P', Ok tt) /\ reading C W' k = Ok (VDict r) /\
    from_dict (cdef cl) (cd_default (cdef cl)) (VDict r) = (m', Ok tt) /\ forall n, dget m' n = dget m n.
Proof.
  intros C cl m D W P k Hs Hd [Hn H] Hc Hp Hf Hk. destruct (trip_entries (cd_param (cdef cl)) 11 m Hn) as (r & H1 & H2 & H3 & H4).
  { intros n v Hin. apply (H n v Hin). }
  { intros n v Hin. apply canon_trip; [apply (H n v Hin)|apply deepspec_lib]. }
  assert (J : json_value (VDict r)) by (constructor; [rewrite H2; exact Hn|exact H3]).
  destruct (json_restart C (VDict r) Hs Hd J D (tick W) P k) as (W' & P' & E & R); [exact Hp|exact Hf|exact Hk|].
  exists W', P', r, (dupdate (cd_default (cdef cl)) m).
  assert (T : to_dict (cdef cl) m = Ok r) by exact H1.
  split; [cbn [ctx_set]; rewrite T; cbn [db_set exec]; rewrite E; reflexivity|]. split; [exact R|].
  split; [exact (from_items_all _ _ _ _ _ H4)|]. intro n. rewrite (dget_covered (cdef cl) m Hc), dupdate_nil by exact Hn. reflexivity.
Qed.
