(** Processes that share an SQL table. *)
From Coq Require Import List NArith ZArith Bool String Lia.
From Verif Require Import Base.Ustr Base.UstrLemmas Model.Value Model.Sql Model.Sessions Spec.StorageSpec Spec.SessionSpec.
Import ListNotations.
Open Scope list_scope.
Open Scope Z_scope.

Lemma owned_iff : forall k r, owned k r = true <-> r_owner r = k.
Proof. intros k r. unfold owned. apply ueqb_eq. Qed.
Lemma owned_not : forall k r, r_owner r <> k -> owned k r = false.
Proof. intros k r H. destruct (owned k r) eqn:E; [apply owned_iff in E; contradiction|reflexivity]. Qed.
Lemma apply_app : forall l m rows, apply_all rows (l ++ m) = apply_all (apply_all rows l) m.
Proof. intros. apply fold_left_app. Qed.
Lemma srun_app : forall l m b, srun b (l ++ m) = srun (srun b l) m.
Proof. intros. apply fold_left_app. Qed.

(** the rows of one key *)
Definition cut (k : ustr) (l : list change) : list change := filter (fun c => match c with CIns r => owned k r | _ => true end) l.
Lemma filter_filter : forall A (f g : A -> bool) l, filter f (filter g l) = filter g (filter f l).
Proof. intros A f g l. induction l as [|x l IH]; [reflexivity|]. cbn [filter]. destruct (g x) eqn:G, (f x) eqn:F; cbn [filter]; rewrite ?G, ?F, IH; reflexivity. Qed.
Lemma rows_of1 : forall k rows c, filter (owned k) (apply1 rows c) = apply_all (filter (owned k) rows) (cut k [c]).
Proof.
  intros k rows c. destruct c as [id|id v|r]; cbn [apply1 cut filter].
  - cbn. apply filter_filter.
  - cbn. induction rows as [|x rows IH]; [reflexivity|]. cbn [map filter].
    assert (O : owned k (if r_id x =? id then mkRow (r_id x) (r_owner x) v else x) = owned k x) by (destruct (r_id x =? id); reflexivity).
    rewrite O. destruct (owned k x); cbn [map]; rewrite IH; reflexivity.
  - rewrite filter_app. cbn [filter]. destruct (owned k r); cbn; [reflexivity|apply app_nil_r].
Qed.
Lemma rows_of : forall k l rows, filter (owned k) (apply_all rows l) = apply_all (filter (owned k) rows) (cut k l).
Proof.
  intros k l. induction l as [|c l IH]; intro rows; [reflexivity|]. change (apply_all rows (c :: l)) with (apply_all (apply1 rows c) l). rewrite IH, rows_of1.
  change (cut k (c :: l)) with (cut k ([c] ++ l)). unfold cut. rewrite filter_app, apply_app. reflexivity.
Qed.

(** ** whose row is it: a number belongs to one key *)
Definition mine (own : Z -> ustr) (n : Z) (r : row) : Prop := own (r_id r) = r_owner r /\ r_id r < n.
Definition tidy (own : Z -> ustr) (n : Z) (c : change) : Prop :=
  match c with CDel id => id < n | CPut id _ => id < n | CIns r => mine own n r end.
Definition numbered (own : Z -> ustr) (b : shared) : Prop :=
  (forall r, In r (b_rows b) -> mine own (b_next b) r) /\ (forall j c, In c (b_open b j) -> tidy own (b_next b) c).
Lemma apply_mine : forall own n l rows, (forall r, In r rows -> mine own n r) -> (forall c, In c l -> tidy own n c) -> forall r, In r (apply_all rows l) -> mine own n r.
Proof.
  intros own n l. induction l as [|c l IH]; intros rows R L; [exact R|]. change (apply_all rows (c :: l)) with (apply_all (apply1 rows c) l).
  apply IH; [|intros c' H; apply L; right; exact H]. intros r H. destruct c as [id|id v|r']; cbn [apply1] in H.
  - apply filter_In in H. apply R, H.
  - apply in_map_iff in H. destruct H as (x & <- & H). destruct (r_id x =? id); exact (R x H).
  - apply in_app_iff in H. destruct H as [H|[<-|[]]]; [exact (R r H)|]. apply (L (CIns r')). left. reflexivity.
Qed.
Lemma visible_mine : forall own b j r, numbered own b -> In r (visible b j) -> mine own (b_next b) r.
Proof. intros own b j r [A B]. apply apply_mine; [exact A|exact (B j)]. Qed.
Lemma more_in : forall b i l j c, In c (more b i l j) -> In c (b_open b j) \/ j = i /\ In c l.
Proof.
  intros b i l j c H. unfold more in H. destruct (Nat.eqb j i) eqn:E; [|left; exact H]. apply Nat.eqb_eq in E. subst j. apply in_app_iff in H. tauto.
Qed.
Definition put (own : Z -> ustr) (n : Z) (k : ustr) : Z -> ustr := fun x => if x =? n then k else own x.
Lemma put_mine : forall own n k r, mine own n r -> mine (put own n k) (n + 1) r.
Proof. intros own n k r [A B]. unfold mine, put. destruct (r_id r =? n) eqn:E; [apply Z.eqb_eq in E; lia|]. split; [exact A|lia]. Qed.
Lemma put_tidy : forall own n k c, tidy own n c -> tidy (put own n k) (n + 1) c.
Proof. intros own n k c H. destruct c; cbn [tidy] in *; [lia|lia|]. apply put_mine. exact H. Qed.
Definition next_own (own : Z -> ustr) (b : shared) (s : stmt) : Z -> ustr :=
  match s with SInsert k _ => put own (b_next b) k | _ => own end.
Lemma step_numbered : forall own b i s, numbered own b -> numbered (next_own own b s) (sstep b i s).
Proof.
  intros own b i s N. pose proof N as [A B]. destruct s as [k|k v|k v| |]; cbn [sstep next_own]; split; cbn [b_rows b_next b_open].
  - exact A.
  - intros j c H. apply more_in in H. destruct H as [H|[-> H]]; [exact (B j c H)|]. apply in_map_iff in H. destruct H as (r & <- & H). apply filter_In in H.
    exact (proj2 (visible_mine _ _ _ _ N (proj1 H))).
  - intros r H. apply put_mine, A, H.
  - intros j c H. apply more_in in H. destruct H as [H|[-> [<-|[]]]]; [apply put_tidy, (B j c H)|]. cbn [tidy]. unfold mine, put. cbn [r_id r_owner]. rewrite Z.eqb_refl. split; [reflexivity|lia].
  - exact A.
  - intros j c H. apply more_in in H. destruct H as [H|[-> H]]; [exact (B j c H)|]. apply in_map_iff in H. destruct H as (r & <- & H). apply filter_In in H.
    exact (proj2 (visible_mine _ _ _ _ N (proj1 H))).
  - intros r H. exact (visible_mine _ _ _ _ N H).
  - intros j c H. destruct (Nat.eqb j i); [contradiction|exact (B j c H)].
  - exact A.
  - intros j c H. destruct (Nat.eqb j i); [contradiction|exact (B j c H)].
Qed.
Lemma empty_numbered : numbered (fun _ => []) shared_empty.
Proof. split; [intros r []|intros j c []]. Qed.

(** ** a key that one session has for itself *)
Section Own.
Variables (i : nat) (k : ustr).
(** changes that leave the rows of [k] alone *)
Definition foreign (own : Z -> ustr) (c : change) : Prop :=
  match c with CDel id => own id <> k | CPut id _ => own id <> k | CIns r => r_owner r <> k end.
Definition apart (own : Z -> ustr) (b : shared) : Prop := numbered own b /\ forall j c, j <> i -> In c (b_open b j) -> foreign own c.
Definition seen (b : shared) : list row := filter (owned k) (visible b i).

Lemma foreign_nothing : forall own n l rows, (forall r, In r rows -> mine own n r /\ r_owner r = k) -> (forall c, In c l -> foreign own c) -> apply_all rows (cut k l) = rows.
Proof.
  intros own n l rows R. induction l as [|c l IH]; intro L; [reflexivity|]. change (cut k (c :: l)) with (cut k ([c] ++ l)). unfold cut. rewrite filter_app, apply_app.
  assert (X : apply_all rows (filter (fun c => match c with CIns r => owned k r | _ => true end) [c]) = rows); [|rewrite X; apply IH; intros c' H; apply L; right; exact H].
  assert (F : foreign own c) by (apply L; left; reflexivity). destruct c as [id|id v|r]; cbn [foreign] in F.
  - cbn. clear - R F. induction rows as [|x rows IH]; [reflexivity|]. cbn [filter]. assert (M : mine own n x /\ r_owner x = k) by (apply R; left; reflexivity).
    destruct (r_id x =? id) eqn:E; cbn [negb]; [apply Z.eqb_eq in E; subst id; unfold mine in M; destruct M as [[M _] O]; congruence|].
    rewrite IH; [reflexivity|]. intros r H. apply R. right. exact H.
  - cbn. clear - R F. induction rows as [|x rows IH]; [reflexivity|]. cbn [map]. assert (M : mine own n x /\ r_owner x = k) by (apply R; left; reflexivity).
    destruct (r_id x =? id) eqn:E; [apply Z.eqb_eq in E; subst id; unfold mine in M; destruct M as [[M _] O]; congruence|].
    rewrite IH; [reflexivity|]. intros r H. apply R. right. exact H.
  - cbn [filter]. rewrite (owned_not _ _ F). reflexivity.
Qed.
Lemma step_apart : forall own b j s, apart own b -> (about k s -> j = i) -> apart (next_own own b s) (sstep b j s).
Proof.
  intros own b j s [N A] O. split; [apply step_numbered, N|]. intros j' c J H.
  assert (P : forall n k' c, tidy own n c -> foreign own c -> foreign (put own n k') c).
  { intros n k' c' T F. destruct c' as [id|id v|r]; cbn [foreign tidy] in *; unfold put; try (destruct (id =? n) eqn:E; [apply Z.eqb_eq in E; lia|exact F]). exact F. }
  destruct s as [k'|k' v|k' v| |]; cbn [sstep next_own b_open] in *.
  - apply more_in in H. destruct H as [H|[-> H]]; [exact (A j' c J H)|]. apply in_map_iff in H. destruct H as (r & <- & H). apply filter_In in H. destruct H as [H K]. cbn [foreign].
    destruct (visible_mine _ _ _ _ N H) as [-> _]. apply owned_iff in K. rewrite K. intro E. apply J, O. exact E.
  - apply more_in in H. destruct H as [H|[-> [<-|[]]]]; [apply P; [exact (proj2 N j' c H)|exact (A j' c J H)]|]. cbn [foreign r_owner]. intro E. apply J, O. exact E.
  - apply more_in in H. destruct H as [H|[-> H]]; [exact (A j' c J H)|]. apply in_map_iff in H. destruct H as (r & <- & H). apply filter_In in H. destruct H as [H K]. cbn [foreign].
    destruct (visible_mine _ _ _ _ N H) as [-> _]. apply owned_iff in K. rewrite K. intro E. apply J, O. exact E.
  - destruct (Nat.eqb j' j); [contradiction|exact (A j' c J H)].
  - destruct (Nat.eqb j' j); [contradiction|exact (A j' c J H)].
Qed.
Lemma other_step : forall own b j s, apart own b -> j <> i -> seen (sstep b j s) = seen b.
Proof.
  intros own b j s [N A] J. assert (E : Nat.eqb i j = false) by (apply Nat.eqb_neq; congruence). unfold seen, visible.
  destruct s; cbn [sstep b_rows b_open]; unfold more; rewrite ?E; try reflexivity.
  unfold visible. rewrite (rows_of k (b_open b i) (apply_all (b_rows b) (b_open b j))), (rows_of k (b_open b i) (b_rows b)), (rows_of k (b_open b j) (b_rows b)).
  rewrite (foreign_nothing own (b_next b) (b_open b j)); [reflexivity| |].
  - intros r H. apply filter_In in H. destruct H as [H K]. split; [exact (proj1 N r H)|apply owned_iff; exact K].
  - intros c H. exact (A j c J H).
Qed.
Lemma dels_all : forall rows, apply_all rows (map (fun r => CDel (r_id r)) rows) = [].
Proof.
  assert (G : forall l rows, (forall r, In r rows -> In (r_id r) (map r_id l)) -> apply_all rows (map (fun r => CDel (r_id r)) l) = []).
  { intro l. induction l as [|x l IH]; intros rows H; [destruct rows as [|r rows]; [reflexivity|exfalso; exact (H r (or_introl eq_refl))]|].
    cbn [map]. change (apply_all rows (CDel (r_id x) :: map (fun r => CDel (r_id r)) l)) with (apply_all (apply1 rows (CDel (r_id x))) (map (fun r => CDel (r_id r)) l)).
    apply IH. intros r R. cbn [apply1] in R. apply filter_In in R. destruct R as [R E]. destruct (H r R) as [D|D]; [rewrite D, Z.eqb_refl in E; discriminate|exact D]. }
  intro rows. apply G. intros r H. apply in_map. exact H.
Qed.
Lemma dels_none : forall l rows, (forall r x, In r rows -> In x l -> r_id r <> r_id x) -> apply_all rows (map (fun r => CDel (r_id r)) l) = rows.
Proof.
  intro l. induction l as [|x l IH]; intros rows H; [reflexivity|]. cbn [map].
  change (apply_all rows (CDel (r_id x) :: map (fun r => CDel (r_id r)) l)) with (apply_all (apply1 rows (CDel (r_id x))) (map (fun r => CDel (r_id r)) l)).
  assert (E : apply1 rows (CDel (r_id x)) = rows).
  { cbn [apply1]. assert (D : forall r, In r rows -> r_id r <> r_id x) by (intros r R; apply H; [exact R|left; reflexivity]). clear - D. induction rows as [|r rows IH]; [reflexivity|]. cbn [filter].
    destruct (r_id r =? r_id x) eqn:E; [apply Z.eqb_eq in E; exfalso; exact (D r (or_introl eq_refl) E)|]. cbn [negb]. rewrite IH; [reflexivity|]. intros r' R. apply D. right. exact R. }
  rewrite E. apply IH. intros r y R Y. apply H; [exact R|right; exact Y].
Qed.
Lemma puts_none : forall l v rows, (forall r x, In r rows -> In x l -> r_id r <> r_id x) -> apply_all rows (map (fun r => CPut (r_id r) v) l) = rows.
Proof.
  intros l v. induction l as [|x l IH]; intros rows H; [reflexivity|]. cbn [map].
  change (apply_all rows (CPut (r_id x) v :: map (fun r => CPut (r_id r) v) l)) with (apply_all (apply1 rows (CPut (r_id x) v)) (map (fun r => CPut (r_id r) v) l)).
  assert (E : apply1 rows (CPut (r_id x) v) = rows).
  { cbn [apply1]. assert (D : forall r, In r rows -> r_id r <> r_id x) by (intros r R; apply H; [exact R|left; reflexivity]). clear - D. induction rows as [|r rows IH]; [reflexivity|]. cbn [map].
    destruct (r_id r =? r_id x) eqn:E; [apply Z.eqb_eq in E; exfalso; exact (D r (or_introl eq_refl) E)|]. rewrite IH; [reflexivity|]. intros r' R. apply D. right. exact R. }
  rewrite E. apply IH. intros r y R Y. apply H; [exact R|right; exact Y].
Qed.
Lemma cut_dels : forall l, cut k (map (fun r => CDel (r_id r)) l) = map (fun r => CDel (r_id r)) l.
Proof. induction l as [|r l IH]; [reflexivity|]. cbn. f_equal. exact IH. Qed.
Lemma cut_puts : forall l v, cut k (map (fun r => CPut (r_id r) v) l) = map (fun r => CPut (r_id r) v) l.
Proof. intros l v. induction l as [|r l IH]; [reflexivity|]. cbn. f_equal. exact IH. Qed.
Lemma own_visible : forall own b k1 k2 r x, numbered own b -> k1 <> k2 -> In r (filter (owned k1) (visible b i)) -> In x (filter (owned k2) (visible b i)) -> r_id r <> r_id x.
Proof.
  intros own b k1 k2 r x N D R X E. apply filter_In in R, X. destruct R as [R R'], X as [X X']. apply owned_iff in R', X'.
  destruct (visible_mine _ _ _ _ N R) as [A _]. destruct (visible_mine _ _ _ _ N X) as [B _]. congruence.
Qed.
(** what a statement of the session itself does to the rows of [k] *)
Lemma own_delete : forall own b k', numbered own b -> seen (sstep b i (SDelete k')) = if ueqb k' k then [] else seen b.
Proof.
  intros own b k' N. unfold seen. cbn [sstep]. unfold visible at 1. cbn [b_rows b_open]. unfold more. rewrite Nat.eqb_refl. rewrite apply_app. change (apply_all (b_rows b) (b_open b i)) with (visible b i).
  rewrite rows_of, cut_dels. destruct (ueqb k' k) eqn:E.
  - apply ueqb_eq in E. subst k'. apply dels_all.
  - apply dels_none. intros r x R X. apply (own_visible own b k k' r x N); [|exact R|exact X]. intros <-. rewrite ueqb_refl in E. discriminate.
Qed.
Lemma own_insert : forall b k' v, seen (sstep b i (SInsert k' v)) = if ueqb k' k then seen b ++ [mkRow (b_next b) k v] else seen b.
Proof.
  intros b k' v. unfold seen. cbn [sstep]. unfold visible at 1. cbn [b_rows b_open]. unfold more. rewrite Nat.eqb_refl. rewrite apply_app. change (apply_all (b_rows b) (b_open b i)) with (visible b i).
  change (apply_all (visible b i) [CIns (mkRow (b_next b) k' v)]) with (visible b i ++ [mkRow (b_next b) k' v]). rewrite filter_app. cbn [filter]. unfold owned at 2. cbn [r_owner].
  destruct (ueqb k' k) eqn:E; [apply ueqb_eq in E; subst k'; reflexivity|apply app_nil_r].
Qed.
Lemma puts_data : forall v l rows, (forall r, In r rows -> In (r_id r) (map r_id l)) -> map r_data (apply_all rows (map (fun r => CPut (r_id r) v) l)) = map (fun _ => v) rows.
Proof.
  intros v l rows H.
  assert (G : forall l rows, (forall r, In r rows -> In (r_id r) (map r_id l) \/ r_data r = v) -> map r_data (apply_all rows (map (fun r => CPut (r_id r) v) l)) = map (fun _ => v) rows).
  { clear. intro l. induction l as [|x l IH]; intros rows H.
    - cbn. apply map_ext_in. intros r R. destruct (H r R) as [[]|E]. exact E.
    - cbn [map]. change (apply_all rows (CPut (r_id x) v :: map (fun r => CPut (r_id r) v) l)) with (apply_all (apply1 rows (CPut (r_id x) v)) (map (fun r => CPut (r_id r) v) l)).
      rewrite IH; [cbn [apply1]; rewrite map_map; reflexivity|]. intros r R. cbn [apply1] in R. apply in_map_iff in R. destruct R as (y & <- & R).
      destruct (r_id y =? r_id x) eqn:E; cbn [r_id r_data]; [right; reflexivity|]. destruct (H y R) as [[D|D]|D]; [rewrite D, Z.eqb_refl in E; discriminate|left; exact D|right; exact D]. }
  apply G. intros r R. left. exact (H r R).
Qed.
Lemma own_update : forall own b k' v, numbered own b -> map r_data (seen (sstep b i (SUpdate k' v))) = if ueqb k' k then map (fun _ => v) (seen b) else map r_data (seen b).
Proof.
  intros own b k' v N. unfold seen. cbn [sstep]. unfold visible at 1. cbn [b_rows b_open]. unfold more. rewrite Nat.eqb_refl. rewrite apply_app. change (apply_all (b_rows b) (b_open b i)) with (visible b i).
  rewrite rows_of, cut_puts. destruct (ueqb k' k) eqn:E.
  - apply ueqb_eq in E. subst k'. apply puts_data. intros r R. apply in_map. exact R.
  - rewrite puts_none; [reflexivity|]. intros r x R X. apply (own_visible own b k k' r x N); [|exact R|exact X]. intros <-. rewrite ueqb_refl in E. discriminate.
Qed.
Lemma own_commit : forall b, seen (sstep b i SCommit) = seen b.
Proof. intro b. unfold seen, visible at 1. cbn [sstep b_rows b_open]. rewrite Nat.eqb_refl. reflexivity. Qed.

(** the data under [k], statement by statement *)
Definition effect (d : list ustr) (s : stmt) : list ustr :=
  match s with
  | SDelete k' => if ueqb k' k then [] else d
  | SInsert k' v => if ueqb k' k then d ++ [v] else d
  | SUpdate k' v => if ueqb k' k then map (fun _ => v) d else d
  | SCommit => d
  | SRollback => d
  end.
Lemma step_effect : forall own b s, numbered own b -> s <> SRollback -> map r_data (seen (sstep b i s)) = effect (map r_data (seen b)) s.
Proof.
  intros own b s N R. destruct s as [k'|k' v|k' v| |]; cbn [effect].
  - rewrite (own_delete own b k' N). destruct (ueqb k' k); reflexivity.
  - rewrite own_insert. destruct (ueqb k' k); [|reflexivity]. rewrite map_app. reflexivity.
  - rewrite (own_update own b k' v N). destruct (ueqb k' k); [|reflexivity]. rewrite map_map. reflexivity.
  - rewrite own_commit. reflexivity.
  - contradiction.
Qed.
Lemma run_effect : forall l own b, apart own b -> only i k l -> ~ In SRollback (of_session i l) -> map r_data (seen (srun b l)) = fold_left effect (of_session i l) (map r_data (seen b)).
Proof.
  induction l as [|[j s] l IH]; intros own b A O R; [reflexivity|]. change (srun b ((j, s) :: l)) with (srun (sstep b j s) l).
  assert (O' : only i k l) by (intros j' s' H; apply O; right; exact H).
  rewrite (IH (next_own own b s) (sstep b j s)); [|apply step_apart; [exact A|apply O; left; reflexivity]|exact O'|intro C; apply R; unfold of_session; cbn [filter fst]; destruct (Nat.eqb j i); [right|]; exact C].
  unfold of_session in R |- *. cbn [filter fst] in R. cbn [filter fst]. destruct (Nat.eqb j i) eqn:E; cbn [map fold_left snd].
  - apply Nat.eqb_eq in E. subst j. rewrite (step_effect own b s (proj1 A)); [reflexivity|]. intros ->. apply R. cbn. rewrite ?Nat.eqb_refl. left. reflexivity.
  - apply Nat.eqb_neq in E. rewrite (other_step own b j s A E). reflexivity.
Qed.
Definition cell (o : option ustr) : list ustr := match o with Some v => [v] | None => [] end.
Lemma ops_effect : forall ops o, fold_left effect (flat_map stmts ops) (cell o) = cell (held k ops o).
Proof.
  induction ops as [|x ops IH]; intro o; [reflexivity|]. cbn [flat_map]. rewrite fold_left_app. destruct x as [k' v|k' v|k'|]; cbn [stmts fold_left effect held].
  - destruct (ueqb k' k); [exact (IH (Some v))|apply IH].
  - destruct (ueqb k' k); [|apply IH]. destruct o as [w|]; cbn [cell map]; [exact (IH (Some v))|exact (IH None)].
  - destruct (ueqb k' k); [exact (IH None)|apply IH].
  - apply IH.
Qed.
End Own.
Lemma no_rollback : forall ops, ~ In SRollback (flat_map stmts ops).
Proof. intros ops H. apply in_flat_map in H. destruct H as (o & _ & H). destruct o; cbn [stmts In] in H; intuition discriminate. Qed.
Lemma c173_own : forall i k ops l, only i k l -> has_done i ops l -> found (srun shared_empty l) i k = match held k ops None with Some v => [v] | None => [] end.
Proof.
  intros i k ops l O H. unfold found. change (filter (owned k) (visible (srun shared_empty l) i)) with (seen i k (srun shared_empty l)).
  rewrite (run_effect i k l (fun _ => []) shared_empty); [|split; [apply empty_numbered|intros j c _ []]|exact O|unfold has_done in H; rewrite H; apply no_rollback]. unfold has_done in H. rewrite H. exact (ops_effect k ops None).
Qed.
Lemma find_filter : forall A (f : A -> bool) l, find f l = match filter f l with x :: _ => Some x | [] => None end.
Proof. intros A f l. induction l as [|x l IH]; [reflexivity|]. cbn [find filter]. destruct (f x); [reflexivity|exact IH]. Qed.
Lemma get_found : forall b i k, shared_get b i k = match found b i k with v :: _ => VStr v | [] => VNone end.
Proof. intros b i k. unfold shared_get, found. rewrite find_filter. destruct (filter (owned k) (visible b i)); reflexivity. Qed.
Lemma c173_get : forall i k ops l, only i k l -> has_done i ops l -> shared_get (srun shared_empty l) i k = match held k ops None with Some v => VStr v | None => VNone end.
Proof. intros i k ops l O H. rewrite get_found, (c173_own i k ops l O H). destruct (held k ops None); reflexivity. Qed.

(** ** nothing is invented *)
Definition backed (own : Z -> ustr) (W : ustr -> ustr -> Prop) (b : shared) : Prop :=
  (forall r, In r (b_rows b) -> W (r_owner r) (r_data r)) /\
  (forall j c, In c (b_open b j) -> match c with CDel _ => True | CPut id v => W (own id) v | CIns r => W (r_owner r) (r_data r) end).
Lemma apply_backed : forall own n (W : ustr -> ustr -> Prop) l rows, (forall r, In r rows -> mine own n r /\ W (r_owner r) (r_data r)) ->
  (forall c, In c l -> tidy own n c /\ match c with CDel _ => True | CPut id v => W (own id) v | CIns r => W (r_owner r) (r_data r) end) ->
  forall r, In r (apply_all rows l) -> W (r_owner r) (r_data r).
Proof.
  intros own n W l. induction l as [|c l IH]; intros rows R L r H; [exact (proj2 (R r H))|]. change (apply_all rows (c :: l)) with (apply_all (apply1 rows c) l) in H.
  revert r H. apply IH; [|intros c' H; apply L; right; exact H]. pose proof (L c (or_introl eq_refl)) as [T C]. intros r H. destruct c as [id|id v|r']; cbn [apply1] in H.
  - apply filter_In in H. apply R, H.
  - apply in_map_iff in H. destruct H as (x & <- & H). destruct (R x H) as [[M1 M2] X]. destruct (r_id x =? id) eqn:E; [|exact (conj (conj M1 M2) X)].
    apply Z.eqb_eq in E. cbn [r_owner r_data]. split; [split; assumption|]. rewrite <- M1, E. exact C.
  - apply in_app_iff in H. destruct H as [H|[<-|[]]]; [exact (R r H)|]. split; [exact T|exact C].
Qed.
Lemma visible_backed : forall own W b j r, numbered own b -> backed own W b -> In r (visible b j) -> W (r_owner r) (r_data r).
Proof.
  intros own W b j r [N1 N2] [B1 B2]. apply (apply_backed own (b_next b)).
  - intros x H. split; [exact (N1 x H)|exact (B1 x H)].
  - intros c H. split; [exact (N2 j c H)|exact (B2 j c H)].
Qed.
Lemma step_backed : forall own W b j s, numbered own b -> backed own W b ->
  (forall k v, s = SInsert k v \/ s = SUpdate k v -> W k v) -> backed (next_own own b s) W (sstep b j s).
Proof.
  intros own W b j s N B H. pose proof B as [B1 B2]. destruct s as [k|k v|k v| |]; cbn [sstep next_own]; split; cbn [b_rows b_open].
  - exact B1.
  - intros j' c I. apply more_in in I. destruct I as [I|[-> I]]; [exact (B2 j' c I)|]. apply in_map_iff in I. destruct I as (r & <- & _). exact Logic.I.
  - exact B1.
  - intros j' c I. apply more_in in I. destruct I as [I|[-> [<-|[]]]]; [|cbn [r_owner r_data]; apply H; left; reflexivity].
    pose proof (B2 j' c I) as X. pose proof (proj2 N j' c I) as T. destruct c as [id|id w|r]; [exact Logic.I| |exact X]. cbn [tidy] in T. unfold put. destruct (id =? b_next b) eqn:E; [apply Z.eqb_eq in E; lia|exact X].
  - exact B1.
  - intros j' c I. apply more_in in I. destruct I as [I|[-> I]]; [exact (B2 j' c I)|]. apply in_map_iff in I. destruct I as (r & <- & I). apply filter_In in I. destruct I as [I K].
    destruct (visible_mine _ _ _ _ N I) as [-> _]. apply owned_iff in K. rewrite K. apply H. right. reflexivity.
  - intros r I. exact (visible_backed own W b j r N B I).
  - intros j' c I. destruct (Nat.eqb j' j); [contradiction|exact (B2 j' c I)].
  - exact B1.
  - intros j' c I. destruct (Nat.eqb j' j); [contradiction|exact (B2 j' c I)].
Qed.
Lemma run_backed : forall (W : ustr -> ustr -> Prop) l own b, numbered own b -> backed own W b -> (forall j k v, In (j, SInsert k v) l \/ In (j, SUpdate k v) l -> W k v) ->
  exists own', numbered own' (srun b l) /\ backed own' W (srun b l).
Proof.
  intros W l. induction l as [|[j s] l IH]; intros own b N B H; [exists own; split; assumption|]. change (srun b ((j, s) :: l)) with (srun (sstep b j s) l).
  apply (IH (next_own own b s)).
  - apply step_numbered, N.
  - apply step_backed; [exact N|exact B|]. intros k v E. apply (H j). destruct E as [<-|<-]; [left|right]; left; reflexivity.
  - intros j' k v [E|E]; apply (H j'); [left|right]; right; exact E.
Qed.
Lemma c173_written : forall l i k v, shared_get (srun shared_empty l) i k = VStr v -> was_written k v l.
Proof.
  intros l i k v H. destruct (run_backed (fun k v => was_written k v l) l (fun _ => []) shared_empty empty_numbered) as (own & N & B).
  - split; [intros r []|intros j c []].
  - intros j k' v' E. exists j. exact E.
  - unfold shared_get in H. destruct (find (owned k) (visible (srun shared_empty l) i)) as [r|] eqn:F; [|discriminate]. assert (E : r_data r = v) by congruence.
    apply find_some in F. destruct F as [F K]. apply owned_iff in K. rewrite <- K, <- E. exact (visible_backed _ _ _ _ _ N B F).
Qed.

(** ** alone *)
Lemma run_numbered : forall l own b, numbered own b -> exists own', numbered own' (srun b l).
Proof. induction l as [|[j s] l IH]; intros own b N; [exists own; exact N|]. exact (IH _ _ (step_numbered own b j s N)). Qed.
Lemma c174_alone : forall l i k v, let b := srun shared_empty l in quiet_but b i ->
  forall j, found (srun b (map (pair i) (stmts (QSet k v)))) j k = [v].
Proof.
  intros l i k v b Q j. destruct (run_numbered l _ _ empty_numbered) as [own N]. fold b in N.
  cbn [stmts map]. change (srun b [(i, SDelete k); (i, SInsert k v); (i, SCommit)]) with (sstep (sstep (sstep b i (SDelete k)) i (SInsert k v)) i SCommit).
  set (b2 := sstep (sstep b i (SDelete k)) i (SInsert k v)).
  assert (S : map r_data (seen i k b2) = [v]).
  { unfold b2. rewrite own_insert, ueqb_refl. rewrite (own_delete i k own b k N), ueqb_refl. reflexivity. }
  assert (V : visible (sstep b2 i SCommit) j = visible b2 i).
  { unfold visible at 1. cbn [sstep b_rows b_open]. destruct (Nat.eqb j i) eqn:E; [reflexivity|]. apply Nat.eqb_neq in E.
    assert (O : b_open b2 j = []). { unfold b2. cbn [sstep b_open]. unfold more at 1. destruct (Nat.eqb j i) eqn:F; [apply Nat.eqb_eq in F; contradiction|]. cbn [b_open]. unfold more. rewrite F. apply Q. exact E. }
    rewrite O. reflexivity. }
  unfold found. rewrite V. exact S.
Qed.

(** ** one session alone is Model/Sql.v *)
Definition same_as (b : shared) (q : sql) (i : nat) : Prop := b_rows b = q_disc q /\ visible b i = q_rows q /\ b_next b = q_next q.
Lemma dels_filter : forall own b i k, numbered own b -> apply_all (visible b i) (map (fun r => CDel (r_id r)) (filter (owned k) (visible b i))) = filter (fun r => negb (owned k r)) (visible b i).
Proof.
  intros own b i k N.
  assert (G : forall l rows, (forall r, In r rows -> mine own (b_next b) r) -> (forall x, In x l -> own (r_id x) = k) ->
    apply_all rows (map (fun r => CDel (r_id r)) l) = filter (fun r => negb (existsb (fun x => r_id r =? r_id x) l)) rows).
  { clear. intro l. induction l as [|x l IH]; intros rows R L.
    - cbn. symmetry. induction rows as [|r rows IHr]; [reflexivity|]. cbn [filter]. rewrite IHr; [reflexivity|]. intros r' H. apply R. right. exact H.
    - cbn [map]. change (apply_all rows (CDel (r_id x) :: map (fun r => CDel (r_id r)) l)) with (apply_all (apply1 rows (CDel (r_id x))) (map (fun r => CDel (r_id r)) l)).
      rewrite IH; [|intros r H; cbn [apply1] in H; apply filter_In in H; apply R, H|intros y Y; apply L; right; exact Y]. cbn [apply1 existsb].
      clear. induction rows as [|r rows IHr]; [reflexivity|]. cbn [filter]. destruct (r_id r =? r_id x) eqn:E; cbn [negb orb]; [exact IHr|]. cbn [filter]. destruct (existsb _ l); cbn [negb]; rewrite IHr; reflexivity. }
  rewrite G.
  - apply filter_ext_in. intros r R. f_equal. destruct (owned k r) eqn:O.
    + apply existsb_exists. exists r. split; [apply filter_In; split; assumption|apply Z.eqb_refl].
    + destruct (existsb _ _) eqn:X; [|reflexivity]. apply existsb_exists in X. destruct X as (x & X & E). apply filter_In in X. destruct X as [X K]. apply Z.eqb_eq in E. apply owned_iff in K.
      destruct (visible_mine _ _ _ _ N X) as [A _]. destruct (visible_mine _ _ _ _ N R) as [B _]. rewrite E in B. assert (r_owner r = k) by congruence. apply owned_iff in H. congruence.
  - intros r R. exact (visible_mine _ _ _ _ N R).
  - intros x X. apply filter_In in X. destruct X as [X K]. apply owned_iff in K. destruct (visible_mine _ _ _ _ N X) as [A _]. congruence.
Qed.
Lemma puts_map : forall own b i k v, numbered own b -> apply_all (visible b i) (map (fun r => CPut (r_id r) v) (filter (owned k) (visible b i))) =
  map (fun r => if owned k r then mkRow (r_id r) (r_owner r) v else r) (visible b i).
Proof.
  intros own b i k v N.
  assert (G : forall l rows, apply_all rows (map (fun r => CPut (r_id r) v) l) = map (fun r => if existsb (fun x => r_id r =? r_id x) l then mkRow (r_id r) (r_owner r) v else r) rows).
  { clear. intro l. induction l as [|x l IH]; intro rows; [cbn; symmetry; apply map_id|].
    cbn [map]. change (apply_all rows (CPut (r_id x) v :: map (fun r => CPut (r_id r) v) l)) with (apply_all (apply1 rows (CPut (r_id x) v)) (map (fun r => CPut (r_id r) v) l)).
    rewrite IH. cbn [apply1]. rewrite map_map. apply map_ext. intro r. cbn [existsb]. destruct (r_id r =? r_id x) eqn:E; cbn [r_id r_owner orb]; [|reflexivity]. destruct (existsb _ l); reflexivity. }
  rewrite G. apply map_ext_in. intros r R. assert (X : existsb (fun x => r_id r =? r_id x) (filter (owned k) (visible b i)) = owned k r); [|rewrite X; reflexivity].
  destruct (owned k r) eqn:O.
  - apply existsb_exists. exists r. split; [apply filter_In; split; assumption|apply Z.eqb_refl].
  - destruct (existsb _ _) eqn:X; [|reflexivity]. apply existsb_exists in X. destruct X as (x & X & E). apply filter_In in X. destruct X as [X K]. apply Z.eqb_eq in E. apply owned_iff in K.
    destruct (visible_mine _ _ _ _ N X) as [A _]. destruct (visible_mine _ _ _ _ N R) as [B _]. rewrite E in B. assert (r_owner r = k) by congruence. apply owned_iff in H. congruence.
Qed.
Lemma more_visible : forall rows n b i l, visible (mkShared rows n (more b i l)) i = apply_all (apply_all rows (b_open b i)) l.
Proof. intros. unfold visible. cbn [b_rows b_open]. unfold more. rewrite Nat.eqb_refl. apply apply_app. Qed.
Lemma commit_visible : forall b i, visible (sstep b i SCommit) i = visible b i.
Proof. intros b i. unfold visible at 1. cbn [sstep b_rows b_open]. rewrite Nat.eqb_refl. reflexivity. Qed.
Lemma op_same : forall own b q i o, numbered own b -> same_as b q i -> same_as (srun b (map (pair i) (stmts o))) (fst (qexec q o)) i.
Proof.
  intros own b q i o N (A & B & C). destruct o as [k v|k v|k|]; cbn [stmts map qexec fst].
  - change (srun b [(i, SDelete k); (i, SInsert k v); (i, SCommit)]) with (sstep (sstep (sstep b i (SDelete k)) i (SInsert k v)) i SCommit).
    assert (V : visible (sstep (sstep b i (SDelete k)) i (SInsert k v)) i = q_rows (sql_set q k v)).
    { cbn [sstep]. rewrite more_visible. cbn [b_open b_rows b_next]. unfold more. rewrite Nat.eqb_refl, apply_app. change (apply_all (b_rows b) (b_open b i)) with (visible b i).
      rewrite (dels_filter own b i k N). unfold sql_set, sql_delete, commit. cbn [fst q_rows q_disc q_next]. rewrite <- B, <- C. reflexivity. }
    unfold same_as. rewrite commit_visible, V. split; [cbn [sstep b_rows] in *; exact V|]. split; [reflexivity|]. cbn [sstep b_next]. rewrite C. reflexivity.
  - change (srun b [(i, SUpdate k v); (i, SCommit)]) with (sstep (sstep b i (SUpdate k v)) i SCommit).
    assert (V : visible (sstep b i (SUpdate k v)) i = q_rows (sql_update q k v)).
    { cbn [sstep]. rewrite more_visible. change (apply_all (b_rows b) (b_open b i)) with (visible b i). rewrite (puts_map own b i k v N). unfold sql_update, commit. cbn [q_rows]. rewrite <- B. reflexivity. }
    unfold same_as. rewrite commit_visible, V. split; [cbn [sstep b_rows] in *; exact V|]. split; [reflexivity|exact C].
  - change (srun b [(i, SDelete k)]) with (sstep b i (SDelete k)). unfold same_as. cbn [sstep]. rewrite more_visible. change (apply_all (b_rows b) (b_open b i)) with (visible b i).
    rewrite (dels_filter own b i k N). cbn [b_rows b_next sql_delete fst q_disc q_rows q_next]. rewrite <- B. auto.
  - change (srun b [(i, SCommit)]) with (sstep b i SCommit). unfold same_as. rewrite commit_visible. cbn [sstep b_rows b_next sql_flush commit q_disc q_rows q_next]. auto.
Qed.
Lemma c173_one : forall ops i, let b := srun shared_empty (map (pair i) (flat_map stmts ops)) in
  b_rows b = q_disc (qrun sql_empty ops) /\ visible b i = q_rows (qrun sql_empty ops).
Proof.
  intros ops i b.
  assert (G : forall ops b q, (exists own, numbered own b) -> same_as b q i -> same_as (srun b (map (pair i) (flat_map stmts ops))) (qrun q ops) i).
  { clear. intro ops. induction ops as [|o ops IH]; intros b q [own N] H; [exact H|]. cbn [flat_map]. rewrite map_app, srun_app. apply (IH _ (fst (qexec q o))); [exact (run_numbered _ _ _ N)|exact (op_same own b q i o N H)]. }
  destruct (G ops shared_empty sql_empty) as (X & Y & _); [eexists; exact empty_numbered|split; [|split]; reflexivity|]. exact (conj X Y).
Qed.

(** ** what the others read *)
Lemma of_session_app : forall i l m, of_session i (l ++ m) = of_session i l ++ of_session i m.
Proof. intros. unfold of_session. rewrite filter_app, map_app. reflexivity. Qed.
Lemma of_session_one : forall i j s, of_session i [(j, s)] = if Nat.eqb j i then [s] else [].
Proof. intros i j s. unfold of_session. cbn [filter fst]. destruct (Nat.eqb j i); reflexivity. Qed.
Lemma open_end : forall i l, of_session i l = [] \/ (exists m, of_session i l = m ++ [SCommit]) -> b_open (srun shared_empty l) i = [].
Proof.
  intros i l. induction l as [|[j s] l IH] using rev_ind; intros H; [reflexivity|]. rewrite of_session_app in H. rewrite srun_app. change (srun (srun shared_empty l) [(j, s)]) with (sstep (srun shared_empty l) j s).
  rewrite of_session_one in H. destruct (Nat.eqb j i) eqn:E.
  - destruct H as [H|[m H]]; [symmetry in H; apply app_cons_not_nil in H; contradiction|]. apply app_inj_tail in H. destruct H as [_ ->]. apply Nat.eqb_eq in E. subst j. cbn [sstep b_open]. rewrite Nat.eqb_refl. reflexivity.
  - rewrite app_nil_r in H. assert (E' : Nat.eqb i j = false) by (apply Nat.eqb_neq; apply Nat.eqb_neq in E; congruence).
    destruct s; cbn [sstep b_open]; unfold more; rewrite E'; exact (IH H).
Qed.
Lemma run_apart : forall i k l own b, apart i k own b -> only i k l -> exists own', apart i k own' (srun b l).
Proof.
  intros i k l. induction l as [|[j s] l IH]; intros own b A O; [exists own; exact A|]. change (srun b ((j, s) :: l)) with (srun (sstep b j s) l).
  apply (IH (next_own own b s)); [|intros j' s' H; apply O; right; exact H]. apply step_apart; [exact A|]. apply O. left. reflexivity.
Qed.
Lemma settled_stmts : forall ops, settled ops -> flat_map stmts ops = [] \/ exists m, flat_map stmts ops = m ++ [SCommit].
Proof.
  intros ops [->|(r & o & -> & H)]; [left; reflexivity|right]. rewrite flat_map_app. cbn [flat_map]. rewrite app_nil_r. destruct o as [k v|k v|k|]; cbn [stmts].
  - exists (flat_map stmts r ++ [SDelete k; SInsert k v]). rewrite <- app_assoc. reflexivity.
  - exists (flat_map stmts r ++ [SUpdate k v]). rewrite <- app_assoc. reflexivity.
  - exfalso. exact (H k eq_refl).
  - exists (flat_map stmts r). reflexivity.
Qed.
Lemma c173_readers : forall i k ops l, only i k l -> has_done i ops l -> settled ops -> forall j, found (srun shared_empty l) j k = match held k ops None with Some v => [v] | None => [] end.
Proof.
  intros i k ops l O H F j. rewrite <- (c173_own i k ops l O H). unfold has_done in H. pose proof (settled_stmts ops F) as M. rewrite <- H in M.
  destruct (run_apart i k l (fun _ => []) shared_empty) as [own [N A]]; [split; [apply empty_numbered|intros j' c _ []]|exact O|]. unfold found. f_equal.
  destruct (Nat.eq_dec j i) as [->|J]; [reflexivity|]. unfold visible. rewrite (open_end i l M). cbn [apply_all fold_left]. rewrite rows_of.
  apply (foreign_nothing k own (b_next (srun shared_empty l))).
  - intros r R. apply filter_In in R. destruct R as [R K]. split; [exact (proj1 N r R)|apply owned_iff; exact K].
  - intros c C. exact (A j c J C).
Qed.

Lemma foreign_view : forall i k own b j, apart i k own b -> j <> i -> filter (owned k) (visible b j) = filter (owned k) (b_rows b).
Proof.
  intros i k own b j [N A] J. unfold visible. rewrite rows_of. apply (foreign_nothing k own (b_next b)).
  - intros r R. apply filter_In in R. destruct R as [R K]. split; [exact (proj1 N r R)|apply owned_iff; exact K].
  - intros c C. exact (A j c J C).
Qed.
Lemma c173_midst : forall i k ops p l, only i k l -> of_session i l = flat_map stmts ops ++ p -> settled ops -> ~ In SCommit p ->
  forall j, j <> i -> found (srun shared_empty l) j k = match held k ops None with Some v => [v] | None => [] end.
Proof.
  intros i k ops p l. revert p. induction l as [|[j0 s] l IH] using rev_ind; intros p O H F P j J.
  - cbn in H. symmetry in H. apply app_eq_nil in H. destruct H as [H ->]. apply (c173_readers i k ops [] O); [unfold has_done; rewrite H; reflexivity|exact F].
  - assert (O' : only i k l) by (intros j' s' X; apply O; apply in_app_iff; left; exact X).
    destruct (run_apart i k l (fun _ => []) shared_empty) as [own A]; [split; [apply empty_numbered|intros j' c _ []]|exact O'|].
    destruct (run_apart i k (l ++ [(j0, s)]) (fun _ => []) shared_empty) as [own' A']; [split; [apply empty_numbered|intros j' c _ []]|exact O|].
    destruct (list_eq_dec (fun x y : stmt => ltac:(decide equality; apply (list_eq_dec N.eq_dec)) : {x = y} + {x <> y}) p []) as [->|E].
    + apply (c173_readers i k ops _ O); [unfold has_done; rewrite H; apply app_nil_r|exact F].
    + unfold found. rewrite (foreign_view i k own' _ j A' J). rewrite of_session_app in H. rewrite srun_app. change (srun (srun shared_empty l) [(j0, s)]) with (sstep (srun shared_empty l) j0 s).
      rewrite of_session_one in H. destruct (Nat.eqb j0 i) eqn:I.
      * destruct (exists_last E) as (p' & s' & ->). rewrite app_assoc in H. apply app_inj_tail in H. destruct H as [H <-].
        assert (X : b_rows (sstep (srun shared_empty l) j0 s) = b_rows (srun shared_empty l)). { destruct s; [reflexivity|reflexivity|reflexivity| |reflexivity]. exfalso. apply P. apply in_app_iff. right. left. reflexivity. }
        rewrite X, <- (foreign_view i k own _ j A J). apply (IH p' O' H F); [|exact J]. intro C. apply P. apply in_app_iff. left. exact C.
      * rewrite app_nil_r in H. apply Nat.eqb_neq in I.
        assert (X : filter (owned k) (b_rows (sstep (srun shared_empty l) j0 s)) = filter (owned k) (b_rows (srun shared_empty l))). { destruct s; [reflexivity|reflexivity|reflexivity| |reflexivity]. cbn [sstep b_rows]. exact (foreign_view i k own _ j0 A I). }
        rewrite X, <- (foreign_view i k own _ j A J). exact (IH p O' H F P j J).
Qed.
Lemma rolled_back : forall i l m, of_session i l = m ++ [SRollback] -> b_open (srun shared_empty l) i = [].
Proof.
  intros i l. induction l as [|[j s] l IH] using rev_ind; intros m H; [reflexivity|]. rewrite of_session_app, of_session_one in H. rewrite srun_app.
  change (srun (srun shared_empty l) [(j, s)]) with (sstep (srun shared_empty l) j s). destruct (Nat.eqb j i) eqn:E.
  - apply app_inj_tail in H. destruct H as [_ ->]. apply Nat.eqb_eq in E. subst j. cbn [sstep b_open]. rewrite Nat.eqb_refl. reflexivity.
  - rewrite app_nil_r in H. assert (E' : Nat.eqb i j = false) by (apply Nat.eqb_neq; apply Nat.eqb_neq in E; congruence).
    destruct s; cbn [sstep b_open]; unfold more; rewrite E'; exact (IH m H).
Qed.
Lemma in_progress : forall dels p s q o, (forall x, In x dels -> exists k', x = QDelete k') -> stmts o = p ++ s :: q -> ~ In SCommit (flat_map stmts dels ++ p).
Proof.
  intros dels p s q o D P C. apply in_app_iff in C. destruct C as [C|C].
  - apply in_flat_map in C. destruct C as (x & X & C). destruct (D x X) as [k' ->]. destruct C as [C|[]]. discriminate C.
  - destruct o as [k1 v|k1 v|k1|]; cbn [stmts] in P; destruct p as [|p1 [|p2 [|p3 p]]]; try discriminate P; cbn [In] in C; try contradiction; try (cbn [app] in P; injection P; intros; subst; intuition discriminate).
    all: cbn [app] in P; injection P; intros; destruct p; discriminate.
Qed.
Lemma c173_crash : forall i k ops dels p s q o l, only i k l -> of_session i l = flat_map stmts (ops ++ dels) ++ p ++ [SRollback] -> settled ops ->
  (forall x, In x dels -> exists k', x = QDelete k') -> stmts o = p ++ s :: q ->
  forall j, found (srun shared_empty l) j k = match held k ops None with Some v => [v] | None => [] end.
Proof.
  intros i k ops dels p s q o l O H F D P.
  assert (G : forall j, j <> i -> found (srun shared_empty l) j k = match held k ops None with Some v => [v] | None => [] end).
  { rewrite flat_map_app, <- app_assoc in H. apply (c173_midst i k ops (flat_map stmts dels ++ p ++ [SRollback]) l O H F). rewrite app_assoc. intro C. apply in_app_iff in C.
    destruct C as [C|[C|[]]]; [exact (in_progress dels p s q o D P C)|discriminate C]. }
  intro j. destruct (Nat.eq_dec j i) as [->|J]; [|exact (G j J)]. rewrite <- (G (S i) (Nat.neq_succ_diag_l i)).
  destruct (run_apart i k l (fun _ => []) shared_empty) as [own A]; [split; [apply empty_numbered|intros j' c _ []]|exact O|]. unfold found.
  rewrite (foreign_view i k own _ (S i) A (Nat.neq_succ_diag_l i)). unfold visible. rewrite app_assoc in H. rewrite (rolled_back i l _ H). reflexivity.
Qed.
Lemma c173_during : forall i k ops dels p s q o l, only i k l -> of_session i l = flat_map stmts (ops ++ dels) ++ p -> settled ops ->
  (forall x, In x dels -> exists k', x = QDelete k') -> stmts o = p ++ s :: q ->
  forall j, j <> i -> found (srun shared_empty l) j k = match held k ops None with Some v => [v] | None => [] end.
Proof.
  intros i k ops dels p s q o l O H F D P. rewrite flat_map_app, <- app_assoc in H. apply (c173_midst i k ops (flat_map stmts dels ++ p) l O H F).
  exact (in_progress dels p s q o D P).
Qed.
