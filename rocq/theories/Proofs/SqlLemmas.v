(** The SQL storage: histories of one session. *)
From Coq Require Import List NArith ZArith Bool String Lia.
From Verif Require Import Base.Ustr Base.UstrLemmas Model.Value Model.FileStore Model.Sql Spec.StorageSpec Proofs.ValueLemmas.
Import ListNotations.
Open Scope list_scope.
Open Scope Z_scope.

Definition value_of (rows : list row) (k : ustr) : option ustr := option_map r_data (find (owned k) rows).
Definition single (rows : list row) : Prop := NoDup (map r_owner rows).

Lemma owned_iff : forall k r, owned k r = true <-> r_owner r = k.
Proof. intros. unfold owned. apply ueqb_eq. Qed.
Lemma owned_other : forall k k' r, owned k r = true -> k <> k' -> owned k' r = false.
Proof. intros k k' r H Hk. apply not_true_is_false. intro E. apply owned_iff in E, H. congruence. Qed.
Lemma find_rest : forall k k' rows, find (owned k) (filter (fun r => negb (owned k' r)) rows) =
  if ueq_dec k' k then None else find (owned k) rows.
Proof.
  intros k k' rows. induction rows as [|r rows IH]; cbn [filter find]; [destruct (ueq_dec k' k); reflexivity|].
  destruct (ueq_dec k' k) as [->|H].
  - destruct (owned k r) eqn:E; cbn [negb]; [exact IH|]. cbn [find]. rewrite E. exact IH.
  - destruct (owned k' r) eqn:E; cbn [negb].
    + rewrite (owned_other k' k r E H). exact IH.
    + cbn [find]. rewrite IH. reflexivity.
Qed.
Lemma find_snoc : forall k rows r, find (owned k) (rows ++ [r]) =
  match find (owned k) rows with Some x => Some x | None => if owned k r then Some r else None end.
Proof.
  intros k rows r. induction rows as [|x rows IH]; cbn [find app]; [reflexivity|]. destruct (owned k x); [reflexivity|exact IH].
Qed.
Lemma filter_owner_nodup : forall f rows, single rows -> single (filter f rows).
Proof.
  intros f rows. unfold single. induction rows as [|r rows IH]; cbn [filter map]; intro H; [constructor|].
  inversion H as [|? ? H1 H2]; subst. destruct (f r); [|auto]. cbn [map]. constructor; [|auto].
  intro Hin. apply H1. apply in_map_iff in Hin. destruct Hin as (x & Hx & Hf). apply filter_In in Hf.
  apply in_map_iff. exists x. tauto.
Qed.
Lemma find_none_owner : forall k rows, find (owned k) rows = None <-> ~ In k (map r_owner rows).
Proof.
  intros k rows. induction rows as [|r rows IH]; cbn [find map In]; [tauto|]. destruct (owned k r) eqn:E.
  - apply owned_iff in E. split; [discriminate|]. intro H. exfalso. apply H. auto.
  - rewrite IH. assert (r_owner r <> k) by (intro H; apply owned_iff in H; congruence). tauto.
Qed.

Lemma step_single : forall q o, single (q_rows q) -> single (q_rows (fst (qexec q o))).
Proof.
  intros q [k v|k v|k|] H; cbn [qexec fst].
  - unfold sql_set, sql_delete, commit. cbn [fst q_rows q_disc q_next]. unfold single. rewrite map_app. cbn [map r_owner].
    apply NoDup_rev in H. apply (NoDup_Add (a := k) (l := map r_owner (filter (fun r => negb (owned k r)) (q_rows q)))).
    + rewrite <- (app_nil_r (map r_owner (filter (fun r => negb (owned k r)) (q_rows q)))) at 1. apply Add_app.
    + split.
      * apply filter_owner_nodup. apply NoDup_rev in H. rewrite rev_involutive in H. exact H.
      * apply find_none_owner. rewrite find_rest. destruct (ueq_dec k k); congruence.
  - unfold sql_update, commit. cbn [q_rows q_disc q_next]. unfold single. rewrite map_map.
    erewrite map_ext; [exact H|]. intro r. destruct (owned k r); reflexivity.
  - apply filter_owner_nodup. exact H.
  - exact H.
Qed.
Lemma step_value : forall q o k, value_of (q_rows (fst (qexec q o))) k = qafter k (value_of (q_rows q) k) o.
Proof.
  intros q [k' v|k' v|k'|] k; cbn [qexec fst qafter]; unfold value_of.
  - unfold sql_set, sql_delete, commit. cbn [fst q_rows q_disc q_next]. rewrite find_snoc, find_rest.
    unfold owned at 2. cbn [r_owner]. destruct (ueq_dec k' k) as [->|H]; [rewrite ueqb_refl; reflexivity|].
    replace (ueqb k' k) with false by (symmetry; apply not_true_is_false; rewrite ueqb_eq; exact H).
    destruct (find (owned k) (q_rows q)); reflexivity.
  - unfold sql_update, commit. cbn [q_rows q_disc q_next]. generalize (q_rows q). intro rows.
    induction rows as [|r rows IH]; cbn [map find]; [destruct (ueq_dec k' k); reflexivity|].
    assert (E : owned k (if owned k' r then mkRow (r_id r) (r_owner r) v else r) = owned k r) by (destruct (owned k' r); reflexivity).
    rewrite E. destruct (owned k r) eqn:Ek; [|exact IH]. cbn [option_map]. destruct (ueq_dec k' k) as [->|H].
    + rewrite Ek. reflexivity.
    + rewrite (owned_other k k' r Ek) by congruence. reflexivity.
  - unfold sql_delete. cbn [fst q_rows]. rewrite find_rest. destruct (ueq_dec k' k); reflexivity.
  - reflexivity.
Qed.
Lemma run_both : forall h q, single (q_rows q) -> single (q_rows (qrun q h)) /\
  forall k, value_of (q_rows (qrun q h)) k = fold_left (qafter k) h (value_of (q_rows q) k).
Proof.
  induction h as [|o h IH]; intros q H; cbn [qrun fold_left]; [auto|].
  destruct (IH (fst (qexec q o)) (step_single q o H)) as [A B]. unfold qrun in *. split; [exact A|].
  intro k. rewrite B, step_value. reflexivity.
Qed.
Lemma count_owned : forall k rows, single rows ->
  List.length (filter (owned k) rows) = match value_of rows k with Some _ => 1%nat | None => 0%nat end.
Proof.
  intros k rows H. unfold value_of. induction rows as [|r rows IH]; [reflexivity|]. inversion H as [|? ? H1 H2]; subst.
  cbn [filter find]. destruct (owned k r) eqn:E; [|apply IH; exact H2]. cbn [List.length option_map]. f_equal. rewrite IH by exact H2.
  apply owned_iff in E. subst k. apply find_none_owner in H1. rewrite H1. reflexivity.
Qed.

Theorem sql_history : forall h k,
  NoDup (map r_owner (q_rows (qrun sql_empty h))) /\
  sql_get (qrun sql_empty h) k = match qlatest k h with Some v => VStr v | None => VNone end /\
  snd (sql_delete (qrun sql_empty h) k) = match qlatest k h with Some _ => 1 | None => 0 end.
Proof.
  intros h k. destruct (run_both h sql_empty (NoDup_nil _)) as [A B]. specialize (B k).
  change (fold_left (qafter k) h (value_of (q_rows sql_empty) k)) with (qlatest k h) in B.
  split; [exact A|]. rewrite <- B. split.
  - unfold sql_get, value_of. destruct (find _ _); reflexivity.
  - unfold sql_delete. cbn [snd]. rewrite (count_owned k _ A). destruct (value_of _ _); reflexivity.
Qed.

(** what is asked for as an owner is found *)
Theorem contains_owner : forall q k r, In r (q_rows q) -> r_owner r = k -> sql_contains q (VStr k) = true.
Proof.
  intros q k r Hr <-. unfold sql_contains. apply existsb_exists. exists r. split; [exact Hr|].
  apply existsb_exists. exists (VStr (r_owner r)). split; [cbn; auto|]. apply py_eq_str_l. reflexivity.
Qed.
(** exactly the cells of the rows are found *)
Theorem contains_cell : forall q k, sql_contains q (VStr k) = true <->
  exists r, In r (q_rows q) /\ (r_owner r = k \/ r_data r = k).
Proof.
  intros q k. unfold sql_contains. rewrite existsb_exists. split.
  - intros (r & Hr & H). exists r. split; [exact Hr|]. apply existsb_exists in H. destruct H as (c & Hc & H).
    apply py_eq_str_l in H. subst c. unfold columns in Hc. cbn [In] in Hc.
    destruct Hc as [H|[H|[H|[H|[]]]]]; try discriminate; injection H as H; auto.
  - intros (r & Hr & H). exists r. split; [exact Hr|]. apply existsb_exists. exists (VStr k).
    split; [|apply py_eq_str_l; reflexivity]. unfold columns. cbn [In]. destruct H as [-> | ->]; auto.
Qed.
(** deleted rows stay deleted once something else has been committed *)
Theorem delete_committed : forall q k k' v, k' <> k ->
  sql_get (sql_crash (sql_set (fst (sql_delete q k)) k' v)) k = VNone /\
  sql_get (sql_crash (sql_update (fst (sql_delete q k)) k' v)) k = VNone.
Proof.
  intros q k k' v Hk.
  assert (G : forall o, (o = QSet k' v \/ o = QUpdate k' v) ->
    value_of (q_rows (fst (qexec (fst (sql_delete q k)) o))) k = None).
  { intros o Ho. rewrite step_value. change (sql_delete q k) with (qexec q (QDelete k)). rewrite step_value.
    cbn [qafter]. destruct (ueq_dec k k); [|congruence]. destruct Ho as [-> | ->]; cbn [qafter]; destruct (ueq_dec k' k); congruence. }
  assert (F : forall rows, value_of rows k = None -> find (owned k) rows = None).
  { intros rows. unfold value_of. destruct (find _ _); [discriminate|reflexivity]. }
  split.
  - specialize (G _ (or_introl eq_refl)). apply F in G. unfold sql_get, sql_crash. cbn [q_rows].
    change (q_disc (sql_set (fst (sql_delete q k)) k' v)) with (q_rows (sql_set (fst (sql_delete q k)) k' v)).
    cbn [qexec fst] in G. rewrite G. reflexivity.
  - specialize (G _ (or_intror eq_refl)). apply F in G. unfold sql_get, sql_crash. cbn [q_rows].
    change (q_disc (sql_update (fst (sql_delete q k)) k' v)) with (q_rows (sql_update (fst (sql_delete q k)) k' v)).
    cbn [qexec fst] in G. rewrite G. reflexivity.
Qed.
(** what set and update wrote survives *)
Theorem set_committed : forall q k v, sql_get (sql_crash (sql_set q k v)) k = VStr v.
Proof.
  intros q k v. pose proof (step_value q (QSet k v) k) as G. cbn [qexec fst qafter] in G.
  destruct (ueq_dec k k); [|congruence]. unfold sql_get, sql_crash. cbn [q_rows].
  change (q_disc (sql_set q k v)) with (q_rows (sql_set q k v)). unfold value_of in G.
  destruct (find _ _); cbn in G; congruence.
Qed.

(** what a crash leaves *)
Lemma qrun_app : forall h h' q, qrun q (h ++ h') = qrun (qrun q h) h'.
Proof. intros h h' q. unfold qrun. apply fold_left_app. Qed.
Lemma deletes_disc : forall h q, (forall o, In o h -> exists k, o = QDelete k) -> q_disc (qrun q h) = q_disc q.
Proof.
  induction h as [|o h IH]; intros q H; [reflexivity|]. destruct (H o (or_introl eq_refl)) as [k ->].
  change (qrun q (QDelete k :: h)) with (qrun (fst (sql_delete q k)) h). rewrite IH by (intros o Ho; apply H; right; exact Ho). reflexivity.
Qed.
Lemma settled_disc : forall h, settled h -> q_disc (qrun sql_empty h) = q_rows (qrun sql_empty h).
Proof.
  intros h [->|(h' & o & -> & Ho)]; [reflexivity|]. rewrite qrun_app. destruct o; try reflexivity. destruct (Ho k eq_refl).
Qed.
Theorem crash_exact : forall h h' k, settled h -> (forall o, In o h' -> exists k, o = QDelete k) ->
  sql_get (sql_crash (qrun sql_empty (h ++ h'))) k = match qlatest k h with Some v => VStr v | None => VNone end.
Proof.
  intros h h' k Hs Hd. rewrite qrun_app. unfold sql_get, sql_crash. cbn [q_rows]. rewrite (deletes_disc h' _ Hd), (settled_disc h Hs).
  destruct (run_both h sql_empty) as [_ R]; [constructor|]. specialize (R k). unfold value_of in R. change (fold_left (qafter k) h _) with (qlatest k h) in R.
  destruct (find (owned k) (q_rows (qrun sql_empty h))) as [r|]; cbn [option_map] in R; rewrite <- R; reflexivity.
Qed.
