From Coq Require Import List NArith ZArith QArith Bool String Lia Permutation.
From Verif Require Import Base.Ustr Model.Cls Model.Value.
Import ListNotations.
Open Scope list_scope.
Open Scope N_scope.

(** ** induction over values *)
Section VInd.
  Variable P : value -> Prop.
  Hypothesis HNone : P VNone.
  Hypothesis HBool : forall b, P (VBool b).
  Hypothesis HInt : forall z, P (VInt z).
  Hypothesis HFlt : forall q, P (VFlt q).
  Hypothesis HStr : forall s, P (VStr s).
  Hypothesis HList : forall l, Forall P l -> P (VList l).
  Hypothesis HDict : forall d, Forall (fun kv => P (snd kv)) d -> P (VDict d).
  Hypothesis HMsg : forall c d, Forall (fun kv => P (snd kv)) d -> P (VMsg c d).
  Fixpoint value_ind' (v : value) : P v :=
    match v with
    | VNone => HNone
    | VBool b => HBool b
    | VInt z => HInt z
    | VFlt q => HFlt q
    | VStr s => HStr s
    | VList l => HList l
        ((fix go (l : list value) : Forall P l :=
            match l with
            | [] => Forall_nil _
            | x :: r => Forall_cons x (value_ind' x) (go r)
            end) l)
    | VDict d => HDict d
        ((fix go (d : list (ustr * value)) : Forall (fun kv => P (snd kv)) d :=
            match d with
            | [] => Forall_nil _
            | kv :: r => Forall_cons kv (value_ind' (snd kv)) (go r)
            end) d)
    | VMsg c d => HMsg c d
        ((fix go (d : list (ustr * value)) : Forall (fun kv => P (snd kv)) d :=
            match d with
            | [] => Forall_nil _
            | kv :: r => Forall_cons kv (value_ind' (snd kv)) (go r)
            end) d)
    end.
End VInd.

(** ** dictionaries *)
Section DictLemmas.
  Context {A : Type}.
  Implicit Types d e : dict A.

  Lemma dget_In : forall d k v, dget d k = Some v -> In (k, v) d.
  Proof.
    induction d as [|[k' v'] d IH]; simpl; intros k v H; [discriminate|].
    destruct (ueqb k k') eqn:E.
    - apply ueqb_eq in E. injection H as <-. subst. left. reflexivity.
    - right. auto.
  Qed.

  Lemma dget_None : forall d k, dget d k = None <-> ~ In k (map fst d).
  Proof.
    induction d as [|[k' v'] d IH]; simpl; intro k.
    - tauto.
    - destruct (ueqb k k') eqn:E.
      + apply ueqb_eq in E. subst. split; [discriminate | intro H; exfalso; apply H; auto].
      + apply ueqb_neq in E. rewrite IH. split; intros H; [intros [H1|H1]; [congruence|contradiction] | tauto].
  Qed.

  Lemma dget_Some_iff : forall d k, (exists v, dget d k = Some v) <-> In k (map fst d).
  Proof.
    intros d k. destruct (dget d k) eqn:E.
    - split; [intros _|eauto]. apply dget_In in E. apply in_map_iff. exists (k, a). auto.
    - apply dget_None in E. split; [intros [v H]; discriminate | contradiction].
  Qed.

  Lemma In_dget : forall d k v, NoDup (map fst d) -> In (k, v) d -> dget d k = Some v.
  Proof.
    induction d as [|[k' v'] d IH]; simpl; intros k v Hn Hin; [contradiction|].
    inversion Hn as [|? ? Hni Hnd]; subst. destruct Hin as [Heq|Hin].
    - injection Heq as -> ->. rewrite ueqb_refl. reflexivity.
    - destruct (ueqb k k') eqn:E; [|auto]. apply ueqb_eq in E. subst.
      exfalso. apply Hni. apply in_map_iff. exists (k', v). auto.
  Qed.

  Lemma dhas_In : forall d k, dhas d k = true <-> In k (map fst d).
  Proof.
    intros. unfold dhas. rewrite <- dget_Some_iff. destruct (dget d k).
    - split; eauto.
    - split; [discriminate | intros [v H]; discriminate].
  Qed.

  Lemma dhas_false : forall d k, dhas d k = false <-> dget d k = None.
  Proof. intros. unfold dhas. destruct (dget d k); split; congruence. Qed.

  Lemma dhas_true : forall d k, dhas d k = true <-> exists v, dget d k = Some v.
  Proof. intros. unfold dhas. destruct (dget d k); split; eauto; try congruence. intros [v H]; congruence. Qed.

  Lemma dget_dset : forall d k v k', dget (dset d k v) k' = if ueqb k' k then Some v else dget d k'.
  Proof.
    induction d as [|[k0 v0] d IH]; simpl; intros k v k'.
    - reflexivity.
    - destruct (ueqb k k0) eqn:E; simpl.
      + apply ueqb_eq in E. subst k0. destruct (ueqb k' k); reflexivity.
      + rewrite IH. destruct (ueqb k' k0) eqn:E0; [|reflexivity].
        apply ueqb_eq in E0. subst k0. rewrite ueqb_sym in E. rewrite E. reflexivity.
  Qed.

  Lemma dget_dset_same : forall d k v, dget (dset d k v) k = Some v.
  Proof. intros. rewrite dget_dset, ueqb_refl. reflexivity. Qed.

  Lemma dget_dset_other : forall d k v k', k' <> k -> dget (dset d k v) k' = dget d k'.
  Proof. intros. rewrite dget_dset. apply ueqb_neq in H. rewrite H. reflexivity. Qed.

  Lemma dset_keys_in : forall d k v, In k (map fst d) -> map fst (dset d k v) = map fst d.
  Proof.
    induction d as [|[k0 v0] d IH]; simpl; intros k v H; [contradiction|].
    destruct (ueqb k k0) eqn:E; simpl; [reflexivity|].
    f_equal. apply IH. destruct H as [H|H]; auto. subst. rewrite ueqb_refl in E. discriminate.
  Qed.

  Lemma dset_new : forall d k v, ~ In k (map fst d) -> dset d k v = d ++ [(k, v)].
  Proof.
    induction d as [|[k0 v0] d IH]; simpl; intros k v H; [reflexivity|].
    destruct (ueqb k k0) eqn:E.
    - apply ueqb_eq in E. subst. exfalso. apply H. auto.
    - rewrite IH; auto.
  Qed.

  Lemma dset_keys : forall d k v x, In x (map fst (dset d k v)) <-> In x (map fst d) \/ x = k.
  Proof.
    intros d k v x. rewrite <- !dget_Some_iff. split.
    - intros [w H]. rewrite dget_dset in H. destruct (ueqb x k) eqn:E; [right; apply ueqb_eq; auto | left; eauto].
    - intros [[w H]| ->].
      + rewrite dget_dset. destruct (ueqb x k); eauto.
      + rewrite dget_dset_same. eauto.
  Qed.

  Lemma dset_nodup : forall d k v, NoDup (map fst d) -> NoDup (map fst (dset d k v)).
  Proof.
    intros d k v H. destruct (in_dec ueq_dec k (map fst d)) as [Hin|Hni].
    - rewrite dset_keys_in; auto.
    - rewrite dset_new; auto. rewrite map_app. simpl.
      apply NoDup_rev in H. rewrite <- (rev_involutive (map fst d)).
      change [k] with (rev [k]). rewrite <- rev_app_distr. apply NoDup_rev. simpl. constructor; auto.
      rewrite <- in_rev. assumption.
  Qed.

  Lemma dset_get_id : forall d k v, dget d k = Some v -> dset d k v = d.
  Proof.
    induction d as [|[k0 v0] d IH]; simpl; intros k v H; [discriminate|].
    destruct (ueqb k k0) eqn:E.
    - injection H as <-. reflexivity.
    - f_equal. auto.
  Qed.

  Lemma dget_ddel : forall d k k', dget (ddel d k) k' = if ueqb k' k then None else dget d k'.
  Proof.
    induction d as [|[k0 v0] d IH]; simpl; intros k k'.
    - destruct (ueqb k' k); reflexivity.
    - destruct (ueqb k k0) eqn:E; simpl.
      + rewrite IH. apply ueqb_eq in E. subst k0. destruct (ueqb k' k); reflexivity.
      + rewrite IH. destruct (ueqb k' k0) eqn:E0; [|reflexivity].
        apply ueqb_eq in E0. subst. rewrite ueqb_sym, E. reflexivity.
  Qed.

  Lemma ddel_keys : forall d k x, In x (map fst (ddel d k)) <-> In x (map fst d) /\ x <> k.
  Proof.
    intros d k x. rewrite <- !dget_Some_iff. split.
    - intros [w H]. rewrite dget_ddel in H. destruct (ueqb x k) eqn:E; [discriminate|].
      split; [eauto | apply ueqb_neq; assumption].
    - intros [[w H] Hne]. rewrite dget_ddel. apply ueqb_neq in Hne. rewrite Hne. eauto.
  Qed.

  Lemma filter_nodup_keys : forall (f : ustr * A -> bool) d, NoDup (map fst d) -> NoDup (map fst (filter f d)).
  Proof.
    induction d as [|[k v] d IH]; simpl; intro H; [constructor|].
    inversion H as [|? ? Hn Hd]; subst. destruct (f (k, v)); simpl; auto. constructor; auto.
    intro Hin. apply Hn. apply in_map_iff in Hin. destruct Hin as [kv [Hk Hin]]. subst.
    apply filter_In in Hin. apply in_map. tauto.
  Qed.

  Lemma ddel_nodup : forall d k, NoDup (map fst d) -> NoDup (map fst (ddel d k)).
  Proof. intros. apply filter_nodup_keys. assumption. Qed.

  Lemma ddel_id : forall d k, ~ In k (map fst d) -> ddel d k = d.
  Proof.
    induction d as [|[k0 v0] d IH]; simpl; intros k H; [reflexivity|].
    destruct (ueqb k k0) eqn:E; simpl.
    - apply ueqb_eq in E. subst. exfalso. auto.
    - rewrite IH; auto.
  Qed.

  Lemma dget_filter : forall (f : ustr -> bool) d k,
    dget (filter (fun kv => f (fst kv)) d) k = if f k then dget d k else None.
  Proof.
    induction d as [|[k0 v0] d IH]; simpl; intro k; [destruct (f k); reflexivity|].
    destruct (f k0) eqn:E; simpl.
    - rewrite IH. destruct (ueqb k k0) eqn:E0; [|reflexivity].
      apply ueqb_eq in E0. subst. rewrite E. reflexivity.
    - rewrite IH. destruct (ueqb k k0) eqn:E0; [|reflexivity].
      apply ueqb_eq in E0. subst. rewrite E. reflexivity.
  Qed.

  Lemma dupdate_cons : forall d k v e, dupdate d ((k, v) :: e) = dupdate (dset d k v) e.
  Proof. reflexivity. Qed.

  Lemma dget_dupdate : forall e d k, NoDup (map fst e) ->
    dget (dupdate d e) k = match dget e k with Some v => Some v | None => dget d k end.
  Proof.
    induction e as [|[k0 v0] e IH]; intros d k H; [reflexivity|].
    rewrite dupdate_cons. inversion H as [|? ? Hn Hd]; subst. rewrite IH by assumption.
    simpl. rewrite dget_dset. destruct (ueqb k k0) eqn:E; [|reflexivity].
    apply ueqb_eq in E. subst. apply dget_None in Hn. rewrite Hn. reflexivity.
  Qed.

  Lemma dupdate_nodup : forall e d, NoDup (map fst d) -> NoDup (map fst (dupdate d e)).
  Proof.
    induction e as [|[k0 v0] e IH]; intros d H; [assumption|].
    rewrite dupdate_cons. apply IH. apply dset_nodup. assumption.
  Qed.

  Lemma dupdate_new : forall e d, NoDup (map fst d ++ map fst e) -> dupdate d e = d ++ e.
  Proof.
    induction e as [|[k0 v0] e IH]; intros d H.
    - rewrite app_nil_r. reflexivity.
    - rewrite dupdate_cons. simpl in H. rewrite dset_new.
      + rewrite IH; [rewrite <- app_assoc; reflexivity|]. rewrite map_app, <- app_assoc. exact H.
      + apply NoDup_remove_2 in H. intro Hin. apply H. apply in_or_app. auto.
  Qed.

  Lemma dict_of_nodup : forall e, NoDup (map fst e) -> dict_of e = e.
  Proof. intros. unfold dict_of. rewrite dupdate_new; auto. Qed.

  Lemma dget_app : forall d e k, dget (d ++ e) k = match dget d k with Some v => Some v | None => dget e k end.
  Proof.
    induction d as [|[k0 v0] d IH]; simpl; intros e k; [reflexivity|].
    destruct (ueqb k k0); [reflexivity | apply IH].
  Qed.

  (** two dictionaries with the same lookups have the same keys up to order *)
  Lemma same_get_length : forall d e, NoDup (map fst d) -> NoDup (map fst e) ->
    (forall k, In k (map fst d) -> In k (map fst e)) ->
    List.length d = List.length e -> forall k, In k (map fst e) -> In k (map fst d).
  Proof.
    intros d e Hd He Hsub Hlen k Hk.
    apply (@NoDup_length_incl _ (map fst d) (map fst e)); auto.
    rewrite !map_length. lia.
  Qed.
End DictLemmas.

(** ** well-formedness unfolded *)
Lemma wfv_list : forall l, wfv (VList l) <-> Forall wfv l.
Proof.
  induction l as [|x l IH]; split; intro H; simpl in *; try constructor; auto.
  - tauto.
  - apply IH. tauto.
  - inversion H; auto.
  - inversion H; subst. apply IH. assumption.
Qed.

Lemma wfv_dict : forall d, wfv (VDict d) <-> NoDup (map fst d) /\ Forall (fun kv => wfv (snd kv)) d.
Proof.
  intro d. change (wfv (VDict d)) with (NoDup (map fst d) /\
    (fix go (d : list (ustr * value)) : Prop :=
         match d with [] => True | (_, x) :: r => wfv x /\ go r end) d).
  assert (G : forall d, (fix go (d : list (ustr * value)) : Prop :=
         match d with [] => True | (_, x) :: r => wfv x /\ go r end) d <-> Forall (fun kv => wfv (snd kv)) d).
  { clear. induction d as [|[k x] d IH]; split; intro H; try constructor; simpl in *; auto.
    - tauto.
    - apply IH. tauto.
    - inversion H; auto.
    - inversion H; subst. apply IH. assumption. }
  rewrite G. tauto.
Qed.

Lemma wfv_msg : forall c d, wfv (VMsg c d) <-> NoDup (map fst d) /\ Forall (fun kv => wfv (snd kv)) d.
Proof. intros c d. rewrite <- wfv_dict. reflexivity. Qed.

(** ** equality *)
Fixpoint eq_all (d e : dict value) : bool :=
  match d with
  | [] => true
  | (k, x) :: d' => match dget e k with Some y => py_eq x y && eq_all d' e | None => false end
  end.

Lemma py_eq_dict_unfold : forall d e,
  py_eq (VDict d) (VDict e) = Nat.eqb (List.length d) (List.length e) && eq_all d e.
Proof.
  intros d e. simpl. f_equal. induction d as [|[k x] d IH]; simpl; [reflexivity|].
  destruct (dget e k); [|reflexivity]. rewrite IH. reflexivity.
Qed.

Lemma py_eq_msg_unfold : forall c d c' e,
  py_eq (VMsg c d) (VMsg c' e) = ueqb (cls_name c) (cls_name c') && py_eq (VDict d) (VDict e).
Proof. reflexivity. Qed.

Lemma eq_all_spec : forall d e, NoDup (map fst d) ->
  (eq_all d e = true <->
   forall k x, dget d k = Some x -> exists y, dget e k = Some y /\ py_eq x y = true).
Proof.
  induction d as [|[k x] d IH]; intros e Hn; simpl.
  - split; [intros; discriminate | auto].
  - inversion Hn as [|? ? Hni Hnd]; subst. split.
    + intro H. destruct (dget e k) as [y|] eqn:E; [|discriminate].
      apply andb_true_iff in H. destruct H as [H1 H2].
      intros k' x' Hx. destruct (ueqb k' k) eqn:E'.
      * apply ueqb_eq in E'. injection Hx as <-. subst. eauto.
      * apply (proj1 (IH e Hnd) H2 _ _ Hx).
    + intro H. destruct (H k x) as [y [Hy1 Hy2]]; [rewrite ueqb_refl; reflexivity|].
      rewrite Hy1, Hy2. simpl. apply IH; auto. intros k' x' Hx. apply H.
      destruct (ueqb k' k) eqn:E'; [|assumption]. apply ueqb_eq in E'. subst.
      exfalso. apply Hni. apply dget_Some_iff. eauto.
Qed.

Lemma py_eq_list_unfold : forall x l y m,
  py_eq (VList (x :: l)) (VList (y :: m)) = py_eq x y && py_eq (VList l) (VList m).
Proof. reflexivity. Qed.

Lemma py_eq_num : forall a b p q, num_of a = Some p -> num_of b = Some q -> py_eq a b = Qeq_bool p q.
Proof.
  intros a b p q Ha Hb. destruct a; simpl in Ha; try discriminate; destruct b; simpl in Hb; try discriminate;
    injection Ha as <-; injection Hb as <-; reflexivity.
Qed.

Lemma py_eq_refl : forall v, wfv v -> py_eq v v = true.
Proof.
  assert (HD : forall d, Forall (fun kv => wfv (snd kv) -> py_eq (snd kv) (snd kv) = true) d ->
     NoDup (map fst d) /\ Forall (fun kv => wfv (snd kv)) d -> py_eq (VDict d) (VDict d) = true).
  { intros d IH [Hn Hf]. rewrite py_eq_dict_unfold, Nat.eqb_refl. simpl.
    apply eq_all_spec; auto. intros k x Hx. exists x. split; auto. apply dget_In in Hx.
    rewrite Forall_forall in IH, Hf. apply (IH (k, x) Hx). apply (Hf (k, x) Hx). }
  intro v. induction v as [|b|z|q|s|l IH|d IH|c d IH] using value_ind'; intro Hw.
  - reflexivity.
  - (erewrite py_eq_num; [|reflexivity|reflexivity]). apply Qeq_bool_iff. reflexivity.
  - (erewrite py_eq_num; [|reflexivity|reflexivity]). apply Qeq_bool_iff. reflexivity.
  - (erewrite py_eq_num; [|reflexivity|reflexivity]). apply Qeq_bool_iff. reflexivity.
  - apply ueqb_refl.
  - apply wfv_list in Hw. induction IH as [|x l Hx HF IHl]; [reflexivity|].
    inversion Hw; subst. rewrite py_eq_list_unfold, Hx, IHl by assumption. reflexivity.
  - apply wfv_dict in Hw. apply HD; assumption.
  - apply wfv_msg in Hw. rewrite py_eq_msg_unfold, ueqb_refl. simpl. apply HD; assumption.
Qed.

Lemma py_eq_sym : forall a b, wfv a -> wfv b -> py_eq a b = true -> py_eq b a = true.
Proof.
  assert (HD : forall d e, Forall (fun kv => forall b, wfv (snd kv) -> wfv b -> py_eq (snd kv) b = true -> py_eq b (snd kv) = true) d ->
     NoDup (map fst d) /\ Forall (fun kv => wfv (snd kv)) d ->
     NoDup (map fst e) /\ Forall (fun kv => wfv (snd kv)) e ->
     py_eq (VDict d) (VDict e) = true -> py_eq (VDict e) (VDict d) = true).
  { intros d e IH [Hn Hf] [Hn' Hf'] H. rewrite py_eq_dict_unfold in *.
    apply andb_true_iff in H. destruct H as [Hl Ha]. apply Nat.eqb_eq in Hl.
    rewrite Hl, Nat.eqb_refl. simpl. apply eq_all_spec; auto.
    assert (Hs := proj1 (eq_all_spec _ _ Hn) Ha). intros k y Hy.
    assert (Hk : In k (map fst d)).
    { apply (same_get_length d e); auto.
      - intros k' Hk'. apply dget_Some_iff in Hk'. destruct Hk' as [x Hx].
        destruct (Hs _ _ Hx) as [y' [Hy' _]]. apply dget_Some_iff. eauto.
      - apply dget_Some_iff. eauto. }
    apply dget_Some_iff in Hk. destruct Hk as [x Hx]. exists x. split; auto.
    destruct (Hs _ _ Hx) as [y' [Hy' He]]. rewrite Hy in Hy'. injection Hy' as <-.
    rewrite Forall_forall in IH, Hf, Hf'. apply dget_In in Hx. apply dget_In in Hy.
    apply (IH (k, x) Hx); simpl; auto. apply (Hf (k,x) Hx). apply (Hf' (k,y) Hy). }
  intro a. induction a as [|b0|z|q|s|l IH|d IH|c d IH] using value_ind'; intros b Ha Hb H.
  - destruct b; simpl in H; try discriminate. reflexivity.
  - destruct b; simpl in H; try discriminate;
      (erewrite py_eq_num; [|reflexivity|reflexivity]); apply Qeq_bool_sym; assumption.
  - destruct b; simpl in H; try discriminate;
      (erewrite py_eq_num; [|reflexivity|reflexivity]); apply Qeq_bool_sym; assumption.
  - destruct b; simpl in H; try discriminate;
      (erewrite py_eq_num; [|reflexivity|reflexivity]); apply Qeq_bool_sym; assumption.
  - destruct b; simpl in H; try discriminate. simpl. rewrite ueqb_sym. assumption.
  - destruct b as [|b1|z1|q1|s1|m|d1|c1 d1]; simpl in H; try discriminate.
    apply wfv_list in Ha. apply wfv_list in Hb. revert m Hb H.
    induction IH as [|x l Hx HF IHl]; intros m Hb H; destruct m as [|y m]; try discriminate; [reflexivity|].
    inversion Ha; subst. inversion Hb; subst.
    apply andb_true_iff in H. destruct H as [H1' H2'].
    rewrite py_eq_list_unfold. rewrite (Hx y), (IHl ltac:(assumption) m); auto.
  - destruct b as [|b1|z1|q1|s1|m|d1|c1 d1]; try discriminate.
    apply wfv_dict in Ha. apply wfv_dict in Hb. apply HD; assumption.
  - destruct b as [|b1|z1|q1|s1|m|d1|c1 d1]; try discriminate.
    apply wfv_msg in Ha. apply wfv_msg in Hb. rewrite py_eq_msg_unfold in *.
    apply andb_true_iff in H. destruct H as [H1 H2]. rewrite ueqb_sym, H1. simpl. apply HD; assumption.
Qed.

Lemma py_eq_trans : forall a b c, wfv a -> wfv b ->
  py_eq a b = true -> py_eq b c = true -> py_eq a c = true.
Proof.
  assert (HD : forall d e f, Forall (fun kv => forall b c, wfv (snd kv) -> wfv b ->
        py_eq (snd kv) b = true -> py_eq b c = true -> py_eq (snd kv) c = true) d ->
     NoDup (map fst d) /\ Forall (fun kv => wfv (snd kv)) d ->
     NoDup (map fst e) /\ Forall (fun kv => wfv (snd kv)) e ->
     py_eq (VDict d) (VDict e) = true -> py_eq (VDict e) (VDict f) = true ->
     py_eq (VDict d) (VDict f) = true).
  { intros d e f IH [Hn Hf] [Hn' Hf'] H1 H2. rewrite py_eq_dict_unfold in *.
    apply andb_true_iff in H1. destruct H1 as [Hl1 Ha1]. apply Nat.eqb_eq in Hl1.
    apply andb_true_iff in H2. destruct H2 as [Hl2 Ha2]. apply Nat.eqb_eq in Hl2.
    rewrite Hl1, Hl2, Nat.eqb_refl. simpl. apply eq_all_spec; auto.
    intros k x Hx.
    destruct (proj1 (eq_all_spec _ _ Hn) Ha1 _ _ Hx) as [y [Hy Exy]].
    destruct (proj1 (eq_all_spec _ _ Hn') Ha2 _ _ Hy) as [z [Hz Eyz]].
    exists z. split; auto. rewrite Forall_forall in IH, Hf, Hf'. apply dget_In in Hx. apply dget_In in Hy.
    apply (IH (k, x) Hx y z); simpl; auto. apply (Hf (k,x) Hx). apply (Hf' (k,y) Hy). }
  assert (HN : forall a b c p, num_of a = Some p -> py_eq a b = true -> py_eq b c = true -> py_eq a c = true).
  { intros a b c p Ha H1 H2.
    assert (exists q, num_of b = Some q) as [q Hq].
    { destruct a; simpl in Ha; try discriminate; destruct b; simpl in H1; try discriminate; simpl; eauto. }
    assert (exists r, num_of c = Some r) as [r Hr].
    { destruct b; simpl in Hq; try discriminate; destruct c; simpl in H2; try discriminate; simpl; eauto. }
    rewrite (py_eq_num _ _ _ _ Ha Hq) in H1. rewrite (py_eq_num _ _ _ _ Hq Hr) in H2.
    rewrite (py_eq_num _ _ _ _ Ha Hr). eapply Qeq_bool_trans; eassumption. }
  intro a. induction a as [|b0|z|q|s|l IH|d IH|cc d IH] using value_ind'; intros b c Ha Hb H1 H2;
    try (eapply HN; [reflexivity | eassumption | eassumption]).
  - destruct b; simpl in H1; try discriminate. assumption.
  - destruct b; simpl in H1; try discriminate. apply ueqb_eq in H1. subst. assumption.
  - destruct b as [|b1|z1|q1|s1|m|d1|c1 d1]; simpl in H1; try discriminate.
    destruct c as [|b1|z1|q1|s1|n|d1|c1 d1]; simpl in H2; try discriminate.
    apply wfv_list in Ha. apply wfv_list in Hb. revert m n Hb H1 H2.
    induction IH as [|x l Hx HF IHl]; intros m n Hb H1 H2; destruct m as [|y m]; try discriminate; auto.
    destruct n as [|z n]; try discriminate.
    inversion Ha; subst. inversion Hb; subst.
    apply andb_true_iff in H1. destruct H1. apply andb_true_iff in H2. destruct H2.
    rewrite py_eq_list_unfold. rewrite (Hx y z), (IHl ltac:(assumption) m n); auto.
  - destruct b as [|b1|z1|q1|s1|m|d1|c1 d1]; try discriminate.
    destruct c as [|b1|z1|q1|s1|n|d2|c2 d2]; try discriminate.
    apply wfv_dict in Ha. apply wfv_dict in Hb. eapply HD; eassumption.
  - destruct b as [|b1|z1|q1|s1|m|d1|c1 d1]; try discriminate.
    destruct c as [|b1|z1|q1|s1|n|d2|c2 d2]; try discriminate.
    apply wfv_msg in Ha. apply wfv_msg in Hb. rewrite py_eq_msg_unfold in *.
    apply andb_true_iff in H1. destruct H1 as [E1 H1]. apply andb_true_iff in H2. destruct H2 as [E2 H2].
    apply ueqb_eq in E1. rewrite E1, E2. simpl. eapply HD; eassumption.
Qed.

Lemma py_eq_str_l : forall s v, py_eq (VStr s) v = true <-> v = VStr s.
Proof.
  intros s v. split.
  - destruct v; simpl; intro H; try discriminate. apply ueqb_eq in H. congruence.
  - intros ->. apply ueqb_refl.
Qed.

Lemma py_eq_str_r : forall s v, py_eq v (VStr s) = true <-> v = VStr s.
Proof.
  intros s v. split.
  - destruct v; simpl; intro H; try discriminate. apply ueqb_eq in H. congruence.
  - intros ->. apply ueqb_refl.
Qed.
