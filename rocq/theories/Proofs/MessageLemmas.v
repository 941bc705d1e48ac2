(** Lemmas on the table checks and on from_dict over an arbitrary parameter table. *)
From Coq Require Import List NArith ZArith QArith Bool String Lia.
From Verif Require Import Base.Ustr Base.UstrLemmas Model.Cls Model.Value Model.Pspec Model.Message
  Spec.MessageSpec Proofs.ValueLemmas.
Import ListNotations.
Open Scope list_scope.
Open Scope N_scope.

(** ** keys *)
Lemma base_key_cons : forall c k, base_key (c :: k) = if c =? 35 then [] else c :: base_key k.
Proof.
  intros c k. unfold base_key. simpl. destruct (c =? 35); [reflexivity|].
  pose proof (split_on_nonempty 35 k) as H. destruct (split_on 35 k); [congruence|reflexivity].
Qed.

Lemma before_hash_base : forall k, before_hash k = base_key k.
Proof.
  induction k as [|c k IH]; [reflexivity|]. rewrite base_key_cons. simpl.
  destruct (c =? 35); [reflexivity|]. rewrite IH. reflexivity.
Qed.

Lemma param_spec_spec_of : forall P k, param_spec P k = spec_of P k.
Proof. intros. unfold param_spec, spec_of. rewrite before_hash_base. reflexivity. Qed.

Lemma before_hash_tagged : forall b t, ~ In 35 b -> before_hash (tagged b t) = b.
Proof.
  unfold tagged. induction b as [|c b IH]; simpl; intros t H; [reflexivity|].
  destruct (c =? 35) eqn:E.
  - apply N.eqb_eq in E. subst. exfalso. auto.
  - f_equal. apply IH. auto.
Qed.

Lemma before_hash_id : forall b, ~ In 35 b -> before_hash b = b.
Proof.
  induction b as [|c b IH]; simpl; intro H; [reflexivity|].
  destruct (c =? 35) eqn:E; [apply N.eqb_eq in E; subst; exfalso; auto|]. f_equal. auto.
Qed.

(** ** emptiness *)
Lemma truthy_empty : forall v, truthy v = false <-> empty_value v.
Proof.
  intro v. split.
  - destruct v as [|b|z|q|s|l|d|c d]; simpl; intro H; try constructor.
    + destruct b; [discriminate|constructor].
    + apply negb_false_iff, Z.eqb_eq in H. subst. constructor.
    + apply negb_false_iff, Qeq_bool_eq in H. assumption.
    + destruct s; [constructor|discriminate].
    + destruct l; [constructor|discriminate].
    + destruct d; [constructor|discriminate].
    + destruct d; [constructor|discriminate].
  - intro H. inversion H; subst; try reflexivity. simpl. apply Qeq_eq_bool in H0. rewrite H0. reflexivity.
Qed.

Lemma truthy_given : forall s v,
  given s v <-> (match p_typ s with TBool => false | _ => negb (truthy v) end) = false.
Proof.
  intros s v. unfold given. rewrite <- truthy_empty.
  destruct (p_typ s) eqn:E; destruct (truthy v); simpl; split; intro H;
    try (destruct H as [H|H]); try discriminate; try congruence; auto; right; congruence.
Qed.

Lemma is_blank_iff : forall v, is_blank v = true <-> blank v.
Proof.
  intro v. unfold is_blank, blank. rewrite orb_true_iff. split.
  - intros [H|H]; destruct v as [|b|z|q|s|l|d|c d]; simpl in H; try discriminate.
    + left. apply ueqb_eq in H. congruence.
    + right. destruct l as [|x [|y l]]; try discriminate.
      * apply andb_true_iff in H. destruct H as [H _]. destruct x; simpl in H; try discriminate.
        apply ueqb_eq in H. congruence.
      * apply andb_true_iff in H. destruct H as [_ H]. discriminate.
  - intros [->| ->]; simpl; auto.
Qed.

Lemma is_blank_false : forall v, is_blank v = false <-> ~ blank v.
Proof.
  intro v. rewrite <- is_blank_iff. destruct (is_blank v); split; congruence.
Qed.

(** ** mapM *)
Lemma mapM_ok_iff : forall A B (f : A -> res B) l,
  (exists r, mapM f l = Ok r) <-> (forall x, In x l -> exists y, f x = Ok y).
Proof.
  intros A B f. induction l as [|x l IH]; simpl.
  - split; [intros _ x []|eauto].
  - split.
    + intros [r H]. destruct (f x) eqn:E; [|discriminate]. destruct (mapM f l) eqn:E2; [|discriminate].
      intros y [<-|Hy]; [eauto|]. apply IH; eauto.
    + intro H. destruct (H x (or_introl eq_refl)) as [y Hy]. rewrite Hy.
      destruct IH as [_ IH]. destruct IH as [r Hr]; [auto|]. rewrite Hr. eauto.
Qed.

Lemma mapM_ok : forall A B (f : A -> res B) l r, mapM f l = Ok r -> Forall2 (fun x y => f x = Ok y) l r.
Proof.
  intros A B f. induction l as [|x l IH]; simpl; intros r H.
  - injection H as <-. constructor.
  - destruct (f x) eqn:E; [|discriminate]. destruct (mapM f l) eqn:E2; [|discriminate].
    injection H as <-. constructor; auto.
Qed.

Lemma mapM_err : forall A B (f : A -> res B) l e, mapM f l = Err e -> exists x, In x l /\ f x = Err e.
Proof.
  intros A B f. induction l as [|x l IH]; simpl; intros e H; [discriminate|].
  destruct (f x) eqn:E.
  - destruct (mapM f l) eqn:E2; [discriminate|]. injection H as <-.
    destruct (IH _ eq_refl) as [y [Hy1 Hy2]]. eauto.
  - injection H as <-. eauto.
Qed.

Lemma mapM_Forall2 : forall A B (f : A -> res B) l r, Forall2 (fun x y => f x = Ok y) l r -> mapM f l = Ok r.
Proof.
  intros A B f l r H. induction H as [|x y l r Hx Hl IH]; [reflexivity|]. simpl. rewrite Hx, IH. reflexivity.
Qed.

Lemma mapM_ext_in : forall A B (f g : A -> res B) l, (forall x, In x l -> f x = g x) -> mapM f l = mapM g l.
Proof.
  intros A B f g. induction l as [|x l IH]; simpl; intro H; [reflexivity|].
  rewrite (H x (or_introl eq_refl)). rewrite IH by auto. reflexivity.
Qed.

(** ** verify *)
Lemma mem_iff : forall al x, existsb (fun y => py_eq y x) al = true <-> exists y, In y al /\ py_eq y x = true.
Proof. intros. apply existsb_exists. Qed.

Lemma type_check_iff : forall s al v,
  type_check (p_typ s) al v (p_null s) = true <-> allowed_value s al v.
Proof.
  intros s al v. unfold type_check, allowed_value. destruct (p_typ s) eqn:E; try apply mem_iff.
  - destruct v; split; intro H; try reflexivity; try discriminate; try (intro; discriminate); auto.
  - destruct v; split; intro H; try reflexivity; try discriminate; try (intro; discriminate); auto.
  - destruct v; split; intro H; try reflexivity; try discriminate; try (intro; discriminate); auto.
  - destruct v; split; intro H; try reflexivity; try (intros l' Hl'; discriminate).
    + intros l' Hl' x Hx. injection Hl' as <-. rewrite forallb_forall in H. apply mem_iff. auto.
    + apply forallb_forall. intros x Hx. apply mem_iff. eapply H; [reflexivity|assumption].
Qed.

Lemma verify_param_cases : forall C d a s,
  match verify_param C d a s with
  | Ok _ =>
      a = u "*" \/
      ((p_req s = true -> exists v, dget d a = Some v /\ given s v) /\
       (forall v al, dget d a = Some v -> given s v -> dget (cd_allowed C) a = Some al -> allowed_value s al v))
  | Err e =>
      a <> u "*" /\
      ((e = EMissingRequiredAttribute /\ p_req s = true /\ ~ exists v, dget d a = Some v /\ given s v) \/
       (e = ENotAllowedValue /\ exists v al, dget d a = Some v /\ given s v /\
          dget (cd_allowed C) a = Some al /\ ~ allowed_value s al v))
  end.
Proof.
  intros C d a s. unfold verify_param. destruct (ueqb a (u "*")) eqn:Ea.
  - apply ueqb_eq in Ea. auto.
  - apply ueqb_neq in Ea. destruct (dget d a) as [v|] eqn:Ed.
    + destruct (match p_typ s with TBool => false | _ => negb (truthy v) end) eqn:Eg.
      * assert (Hng : ~ given s v) by (rewrite truthy_given; congruence).
        destruct (p_req s) eqn:Er.
        -- split; [assumption|]. left. repeat split; auto. intros [v' [Hv' Hg]].
           injection Hv' as <-. auto.
        -- right. split; [congruence|]. intros v' al Hv' Hg. injection Hv' as <-. contradiction.
      * assert (Hg : given s v) by (rewrite truthy_given; assumption).
        destruct (dget (cd_allowed C) a) as [al|] eqn:Eal.
        -- destruct (type_check (p_typ s) al v (p_null s)) eqn:Et.
           ++ right. split; [eauto|]. intros v' al' Hv' _ Hal'. injection Hv' as <-. injection Hal' as <-.
              apply type_check_iff. assumption.
           ++ split; [assumption|]. right. split; [reflexivity|]. exists v, al. repeat split; auto.
              rewrite <- type_check_iff. congruence.
        -- right. split; [eauto|]. intros v' al' _ _ Hal'. discriminate.
    + destruct (p_req s) eqn:Er.
      * split; [assumption|]. left. repeat split; auto. intros [v' [Hv' _]]. discriminate.
      * right. split; [congruence|]. intros v' al' Hv'. discriminate.
Qed.

Lemma verify_base_ok : forall C d,
  verify_base C d = Ok true <-> (forall a, ~ missing C d a) /\ (forall a, ~ not_allowed C d a).
Proof.
  intros C d. unfold verify_base. split.
  - intro H. destruct (mapM _ (cd_param C)) as [r|] eqn:E; [|discriminate].
    assert (G : forall x, In x (cd_param C) -> exists y, verify_param C d (fst x) (snd x) = Ok y)
      by (apply mapM_ok_iff; eauto).
    split; intro a.
    + intros [s [Hin [Ha [Hr Hn]]]]. destruct (G _ Hin) as [y Hy]. simpl in Hy.
      pose proof (verify_param_cases C d a s) as Hc. rewrite Hy in Hc. destruct Hc as [Hc|[Hc _]]; auto.
    + intros [s [v [al [Hin [Ha [Hd [Hg [Hal Hna]]]]]]]]. destruct (G _ Hin) as [y Hy]. simpl in Hy.
      pose proof (verify_param_cases C d a s) as Hc. rewrite Hy in Hc. destruct Hc as [Hc|[_ Hc]]; eauto.
  - intros [Hm Hna].
    assert (G : exists r, mapM (fun ks => verify_param C d (fst ks) (snd ks)) (cd_param C) = Ok r).
    { apply mapM_ok_iff. intros [a s] Hin. simpl. pose proof (verify_param_cases C d a s) as Hc.
      destruct (verify_param C d a s) as [y|e]; [eauto|]. exfalso. destruct Hc as [Ha [[He [Hr Hn]]|[He [v [al Hx]]]]].
      - apply (Hm a). exists s. auto.
      - apply (Hna a). exists s, v, al. tauto. }
    destruct G as [r ->]. reflexivity.
Qed.

Lemma verify_base_err : forall C d e, verify_base C d = Err e ->
  (e = EMissingRequiredAttribute /\ exists a, missing C d a) \/
  (e = ENotAllowedValue /\ exists a, not_allowed C d a).
Proof.
  intros C d e H. unfold verify_base in H. destruct (mapM _ (cd_param C)) as [r|e'] eqn:E; [discriminate|].
  injection H as <-. apply mapM_err in E. destruct E as [[a s] [Hin Hx]]. simpl in Hx.
  pose proof (verify_param_cases C d a s) as Hc. rewrite Hx in Hc.
  destruct Hc as [Ha [[He [Hr Hn]]|[He [v [al Hy]]]]].
  - left. split; [assumption|]. exists a, s. auto.
  - right. split; [assumption|]. exists a, s, v, al. tauto.
Qed.

Lemma c04 : forall C d,
  (verify_base C d = Ok true <-> (forall a, ~ missing C d a) /\ (forall a, ~ not_allowed C d a)) /\
  (verify_base C d <> Ok false) /\
  (forall e, verify_base C d = Err e ->
     (e = EMissingRequiredAttribute /\ exists a, missing C d a) \/
     (e = ENotAllowedValue /\ exists a, not_allowed C d a)).
Proof.
  intros C d. split; [apply verify_base_ok|]. split; [|apply verify_base_err].
  unfold verify_base. destruct (mapM _ _); simpl; congruence.
Qed.

(** ** from_dict *)
Section FromItems.
  Variable L : lib.
  Variable P : dict pspec.

  Lemma fd_entry_spec : forall k v,
    fd_entry L P k v =
    if is_blank v then Ok None
    else match param_spec P k with
         | Some s => match dget P k, dget P (before_hash k), v with
                     | None, None, VNone => Ok (Some VNone)
                     | _, _, _ => add_val L s v
                     end
         | None => Ok (Some v)
         end.
  Proof.
    intros k v. unfold fd_entry, param_spec. rewrite before_hash_base.
    destruct (is_blank v); [reflexivity|].
    destruct (dget P k); [reflexivity|]. destruct (dget P (base_key k)); [reflexivity|].
    destruct (dget P (u "*")); [|reflexivity]. destruct v; reflexivity.
  Qed.

  (** what is under [k] after processing one entry *)
  Definition put (d : dict value) (k : ustr) (o : option value) : dict value :=
    match o with Some x => dset d k x | None => d end.

  Lemma from_items_cons : forall d k v r,
    from_items L P d ((k, v) :: r) =
    match fd_entry L P k v with
    | Err e => (d, Err e)
    | Ok o => from_items L P (put d k o) r
    end.
  Proof. intros. simpl. destruct (fd_entry L P k v) as [[x|]|e]; reflexivity. Qed.

  Lemma dget_put : forall d k o k',
    dget (put d k o) k' = if ueqb k' k then match o with Some x => Some x | None => dget d k' end else dget d k'.
  Proof.
    intros. unfold put. destruct o.
    - apply dget_dset.
    - destruct (ueqb k' k); reflexivity.
  Qed.

  Lemma put_nodup : forall d k o, NoDup (map fst d) -> NoDup (map fst (put d k o)).
  Proof. intros. destruct o; [apply dset_nodup|]; assumption. Qed.

  Lemma from_items_nodup : forall l d, NoDup (map fst d) -> NoDup (map fst (fst (from_items L P d l))).
  Proof.
    induction l as [|[k v] l IH]; intros d H; [assumption|]. rewrite from_items_cons.
    destruct (fd_entry L P k v) as [o|e]; [|assumption]. apply IH. apply put_nodup. assumption.
  Qed.

  Lemma from_items_other : forall l d k, ~ In k (map fst l) ->
    dget (fst (from_items L P d l)) k = dget d k.
  Proof.
    induction l as [|[k0 v] l IH]; intros d k H; [reflexivity|]. rewrite from_items_cons.
    destruct (fd_entry L P k0 v) as [o|e]; [|reflexivity]. rewrite IH.
    - rewrite dget_put. destruct (ueqb k k0) eqn:E; [|reflexivity].
      apply ueqb_eq in E. subst. exfalso. apply H. left. reflexivity.
    - intro Hin. apply H. right. assumption.
  Qed.

  Lemma from_items_get : forall l d d' k, NoDup (map fst l) -> from_items L P d l = (d', Ok tt) ->
    dget d' k = match dget l k with
                | None => dget d k
                | Some v => match fd_entry L P k v with
                            | Ok (Some x) => Some x
                            | _ => dget d k
                            end
                end.
  Proof.
    induction l as [|[k0 v] l IH]; intros d d' k Hn H.
    - simpl in H. injection H as <-. reflexivity.
    - rewrite from_items_cons in H. inversion Hn as [|? ? Hni Hn']; subst.
      destruct (fd_entry L P k0 v) as [o|e] eqn:E; [|discriminate]. cbn [dget].
      destruct (ueqb k k0) eqn:Ek.
      + apply ueqb_eq in Ek. subst k0. rewrite E.
        pose proof (from_items_other l (put d k o) k Hni) as Ho. rewrite H in Ho. simpl in Ho.
        rewrite Ho, dget_put, ueqb_refl. reflexivity.
      + rewrite (IH _ _ _ Hn' H). rewrite dget_put, Ek. reflexivity.
  Qed.

  Lemma from_items_ok_iff : forall l d,
    snd (from_items L P d l) = Ok tt <-> (forall k v, In (k, v) l -> exists o, fd_entry L P k v = Ok o).
  Proof.
    induction l as [|[k0 v0] l IH]; intros d; simpl.
    - split; [intros _ k v []|reflexivity].
    - destruct (fd_entry L P k0 v0) as [[x|]|e] eqn:E.
      + rewrite IH. split; intros H k v.
        * intros [Heq|Hin]; [injection Heq as <- <-; eauto|eauto].
        * intro Hin. apply H. right. assumption.
      + rewrite IH. split; intros H k v.
        * intros [Heq|Hin]; [injection Heq as <- <-; eauto|eauto].
        * intro Hin. apply H. right. assumption.
      + split; [discriminate|]. intro H. destruct (H k0 v0 (or_introl eq_refl)) as [o Ho]. congruence.
  Qed.

  Lemma from_items_err : forall l d e, snd (from_items L P d l) = Err e ->
    exists k v, In (k, v) l /\ fd_entry L P k v = Err e.
  Proof.
    induction l as [|[k0 v0] l IH]; intros d e H; [discriminate|]. rewrite from_items_cons in H.
    destruct (fd_entry L P k0 v0) as [o|e'] eqn:E.
    - destruct (IH _ _ H) as [k [v [Hin Hx]]]. exists k, v. split; [right; assumption|assumption].
    - injection H as <-. exists k0, v0. split; [left; reflexivity|assumption].
  Qed.

  (** also after a failure each key holds its old value or what its own entry stores *)
  Lemma from_items_each : forall l d k, NoDup (map fst l) ->
    dget (fst (from_items L P d l)) k = dget d k \/
    exists v x, dget l k = Some v /\ fd_entry L P k v = Ok (Some x) /\
      dget (fst (from_items L P d l)) k = Some x.
  Proof.
    induction l as [|[k0 v0] l IH]; intros d k Hn; [left; reflexivity|].
    rewrite from_items_cons. inversion Hn as [|? ? Hni Hn']; subst.
    destruct (fd_entry L P k0 v0) as [o|e] eqn:E; [|left; reflexivity].
    cbn [dget]. destruct (ueqb k k0) eqn:Ek.
    - apply ueqb_eq in Ek. subst k0. rewrite from_items_other by assumption.
      rewrite dget_put, ueqb_refl. destruct o as [x|].
      + right. exists v0, x. auto.
      + left. reflexivity.
    - destruct (IH (put d k0 o) k Hn') as [H|[v [x [H1 [H2 H3]]]]].
      + left. rewrite H, dget_put, Ek. reflexivity.
      + right. exists v, x. auto.
  Qed.

  Lemma from_items_single : forall d k v,
    from_items L P d [(k, v)] =
    match fd_entry L P k v with Ok o => (put d k o, Ok tt) | Err e => (d, Err e) end.
  Proof. intros. rewrite from_items_cons. destruct (fd_entry L P k v); reflexivity. Qed.
End FromItems.

Lemma from_dict_VDict : forall C d l, from_dict C d (VDict l) = from_items the_lib (cd_param C) d l.
Proof. reflexivity. Qed.

(** ** C09 *)
Lemma c09 : forall C d l d', NoDup (map fst l) -> from_dict C d (VDict l) = (d', Ok tt) ->
  forall k,
    (forall v, In (k, v) l -> dget d' k = dget (fst (from_dict C d (VDict [(k, v)]))) k) /\
    (~ In k (map fst l) -> dget d' k = dget d k).
Proof.
  intros C d l d' Hn H k. rewrite from_dict_VDict in H. split.
  - intros v Hin. apply In_dget in Hin; [|assumption].
    rewrite (from_items_get _ _ _ _ _ k Hn H), Hin.
    rewrite from_dict_VDict, from_items_single.
    destruct (fd_entry the_lib (cd_param C) k v) as [[x|]|e]; simpl.
    + rewrite dget_dset_same. reflexivity.
    + reflexivity.
    + reflexivity.
  - intro Hni. pose proof (from_items_other the_lib (cd_param C) l d k Hni) as Ho. rewrite H in Ho. exact Ho.
Qed.

Lemma c09_outcome : forall C d l,
  snd (from_dict C d (VDict l)) = Ok tt <->
  (forall k v, In (k, v) l -> forall d0, snd (from_dict C d0 (VDict [(k, v)])) = Ok tt).
Proof.
  intros C d l. rewrite from_dict_VDict, from_items_ok_iff. split.
  - intros H k v Hin d0. destruct (H k v Hin) as [o Ho]. rewrite from_dict_VDict, from_items_single, Ho. reflexivity.
  - intros H k v Hin. specialize (H k v Hin []). rewrite from_dict_VDict, from_items_single in H.
    destruct (fd_entry the_lib (cd_param C) k v); [eauto|discriminate].
Qed.

(** prior content matters for a key only when nothing is stored *)
Lemma c09_prior : forall C d e k v, dget d k = dget e k ->
  dget (fst (from_dict C d (VDict [(k, v)]))) k = dget (fst (from_dict C e (VDict [(k, v)]))) k.
Proof.
  intros C d e k v H. rewrite !from_dict_VDict, !from_items_single.
  destruct (fd_entry the_lib (cd_param C) k v) as [[x|]|e']; simpl; try assumption.
  rewrite !dget_dset_same. reflexivity.
Qed.

(** ** C10 *)
Lemma undeclared_spec : forall P k, undeclared P k -> param_spec P k = None.
Proof.
  intros P k [H1 [H2 H3]]. apply dget_None in H1, H2, H3. unfold param_spec. rewrite H1, H2. assumption.
Qed.

Lemma c10_from_dict : forall C d l d', NoDup (map fst l) -> from_dict C d (VDict l) = (d', Ok tt) ->
  forall k v, undeclared (cd_param C) k -> In (k, v) l -> ~ blank v -> dget d' k = Some v.
Proof.
  intros C d l d' Hn H k v Hu Hin Hb. rewrite from_dict_VDict in H.
  apply In_dget in Hin; [|assumption].
  rewrite (from_items_get _ _ _ _ _ k Hn H), Hin, fd_entry_spec.
  apply is_blank_false in Hb. rewrite Hb, (undeclared_spec _ _ Hu). reflexivity.
Qed.

Lemma ret_msg_ok : forall r d, ret_msg r = Ok d -> r = (d, Ok tt).
Proof. intros [d' [[]|e]] d H; simpl in H; congruence. Qed.

Lemma c10_construct : forall C kw d', NoDup (map fst kw) -> construct C kw = Ok d' ->
  forall k v, undeclared (cd_param C) k -> In (k, v) kw -> ~ blank v -> k <> u "set_defaults" ->
    dget d' k = Some v.
Proof.
  intros C kw d' Hn H k v Hu Hin Hb Hk. unfold construct, construct_gen in H.
  destruct (dhas kw (u "self")); [discriminate|]. apply ret_msg_ok in H.
  rewrite <- from_dict_VDict in H.
  refine (c10_from_dict _ _ _ _ _ H k v Hu _ Hb).
  - apply ddel_nodup. assumption.
  - apply filter_In. split; [assumption|]. cbn [fst]. apply negb_true_iff. apply ueqb_neq. congruence.
Qed.

Lemma extra_get : forall C d k, NoDup (map fst d) ->
  dget (extra C d) k = if dhas (cd_param C) k then None else dget d k.
Proof.
  intros C d k Hn. unfold extra. rewrite dict_of_nodup by (apply filter_nodup_keys; assumption).
  rewrite (dget_filter (fun x => negb (dhas (cd_param C) x))). destruct (dhas (cd_param C) k); reflexivity.
Qed.

Lemma c10_extra : forall C d k v, NoDup (map fst d) ->
  (dget (extra C d) k = Some v <-> dget d k = Some v /\ ~ In k (map fst (cd_param C))).
Proof.
  intros C d k v Hn. rewrite extra_get by assumption. rewrite <- dhas_In.
  destruct (dhas (cd_param C) k); intuition congruence.
Qed.

(** ** C18 *)
Lemma c18_partial : forall C d l k, NoDup (map fst l) ->
  (~ In k (map fst l) -> dget (fst (from_dict C d (VDict l))) k = dget d k) /\
  (forall v, In (k, v) l -> dget (fst (from_dict C d (VDict l))) k = dget d k \/
     dget (fst (from_dict C d (VDict l))) k = dget (fst (from_dict C d (VDict [(k, v)]))) k).
Proof.
  intros C d l k Hn. rewrite from_dict_VDict. split.
  - apply from_items_other.
  - intros v Hin. destruct (from_items_each the_lib (cd_param C) l d k Hn) as [H|[v' [x [H1 [H2 H3]]]]].
    + left. assumption.
    + right. apply In_dget in Hin; [|assumption]. rewrite H1 in Hin. injection Hin as ->.
      rewrite H3, from_dict_VDict, from_items_single, H2. simpl. rewrite dget_dset_same. reflexivity.
Qed.

(** ** C22 *)
Lemma fd_entry_tagged : forall L P b t v, ~ In 35 b -> In b (map fst P) -> ~ In (tagged b t) (map fst P) ->
  fd_entry L P (tagged b t) v = fd_entry L P b v.
Proof.
  intros L P b t v Hb Hin Hni. rewrite !fd_entry_spec. unfold param_spec.
  rewrite before_hash_tagged, before_hash_id by assumption.
  apply dget_Some_iff in Hin. destruct Hin as [s Hs]. apply dget_None in Hni. rewrite Hni, Hs. reflexivity.
Qed.

Lemma fu_entry_tagged : forall L P b t vals, ~ In 35 b -> In b (map fst P) -> ~ In (tagged b t) (map fst P) ->
  fu_entry L P (tagged b t) vals = fu_entry L P b vals.
Proof.
  intros L P b t v Hb Hin Hni. unfold fu_entry. rewrite <- !param_spec_spec_of. unfold param_spec.
  rewrite before_hash_tagged by assumption.
  apply dget_Some_iff in Hin. destruct Hin as [s Hs]. apply dget_None in Hni. rewrite Hni, Hs. reflexivity.
Qed.

Lemma c22_dict : forall C b t v, ~ In 35 b -> In b (map fst (cd_param C)) -> ~ In (tagged b t) (map fst (cd_param C)) ->
  forall d d0, dget d (tagged b t) = dget d0 b ->
  let r1 := from_dict C d (VDict [(tagged b t, v)]) in
  let r2 := from_dict C d0 (VDict [(b, v)]) in
  snd r1 = snd r2 /\ dget (fst r1) (tagged b t) = dget (fst r2) b /\
  (forall k, k <> tagged b t -> dget (fst r1) k = dget d k).
Proof.
  intros C b t v Hb Hin Hni d d0 Hd r1 r2. subst r1 r2.
  rewrite !from_dict_VDict, !from_items_single, fd_entry_tagged by assumption.
  destruct (fd_entry the_lib (cd_param C) b v) as [o|e]; simpl; [|auto].
  split; [reflexivity|]. split.
  - rewrite !dget_put, !ueqb_refl. destruct o; auto.
  - intros k Hk. rewrite dget_put. apply ueqb_neq in Hk. rewrite Hk. reflexivity.
Qed.

Lemma from_fields_single : forall L P d k vals,
  from_fields L P d [(k, vals)] =
  match fu_entry L P k vals with Ok x => (dset d k x, Ok tt) | Err e => (d, Err e) end.
Proof. intros. simpl. destruct (fu_entry L P k vals); reflexivity. Qed.

Lemma from_qs_fields : forall L P d q f fs, Percent.parse_qs q = f :: fs -> from_qs L P d q = from_fields L P d (f :: fs).
Proof. intros L P d q f fs H. unfold from_qs. rewrite H. reflexivity. Qed.

Lemma c22_qs : forall C b t vals q1 q2, ~ In 35 b -> In b (map fst (cd_param C)) ->
  ~ In (tagged b t) (map fst (cd_param C)) ->
  Percent.parse_qs q1 = [(tagged b t, vals)] -> Percent.parse_qs q2 = [(b, vals)] ->
  forall d d0, dget d (tagged b t) = dget d0 b ->
  let r1 := from_urlencoded C d q1 in
  let r2 := from_urlencoded C d0 q2 in
  snd r1 = snd r2 /\ dget (fst r1) (tagged b t) = dget (fst r2) b /\
  (forall k, k <> tagged b t -> dget (fst r1) k = dget d k).
Proof.
  intros C b t vals q1 q2 Hb Hin Hni Hq1 Hq2 d d0 Hd r1 r2. subst r1 r2. unfold from_urlencoded.
  rewrite (from_qs_fields _ _ _ _ _ _ Hq1), (from_qs_fields _ _ _ _ _ _ Hq2), !from_fields_single.
  rewrite fu_entry_tagged by assumption.
  destruct (fu_entry the_lib (cd_param C) b vals) as [x|e]; simpl; [|auto].
  split; [reflexivity|]. split.
  - rewrite !dget_dset_same. reflexivity.
  - intros k Hk. apply dget_dset_other. assumption.
Qed.

(** ** C23 *)
Lemma set_defaults_go : forall (l d : dict value) k, NoDup (map fst l) ->
  dget (fold_left (fun d kv => if dhas d (fst kv) then d else dset d (fst kv) (snd kv)) l d) k =
  match dget d k with Some v => Some v | None => dget l k end.
Proof.
  induction l as [|[k0 v0] l IH]; intros d k Hn; simpl.
  - destruct (dget d k); reflexivity.
  - inversion Hn as [|? ? Hni Hn']; subst. rewrite IH by assumption.
    destruct (dhas d k0) eqn:E.
    + destruct (dget d k) eqn:Ek; [reflexivity|]. destruct (ueqb k k0) eqn:Ekk; [|reflexivity].
      apply ueqb_eq in Ekk. subst. apply dhas_true in E. destruct E as [v E]. congruence.
    + rewrite dget_dset. destruct (ueqb k k0) eqn:Ekk; [|reflexivity].
      apply ueqb_eq in Ekk. subst. apply dhas_false in E. rewrite E. reflexivity.
Qed.

Lemma c23 : forall C d, NoDup (map fst (cd_default C)) ->
  (forall k v, dget d k = Some v -> dget (set_defaults C d) k = Some v) /\
  (forall k, dget d k = None -> dget (set_defaults C d) k = dget (cd_default C) k).
Proof.
  intros C d Hn. unfold set_defaults. split; intros k.
  - intros v H. rewrite set_defaults_go, H by assumption. reflexivity.
  - intro H. rewrite set_defaults_go, H by assumption. reflexivity.
Qed.

Lemma set_defaults_id : forall (l d : dict value), (forall k, In k (map fst l) -> In k (map fst d)) ->
  fold_left (fun d kv => if dhas d (fst kv) then d else dset d (fst kv) (snd kv)) l d = d.
Proof.
  induction l as [|[k0 v0] l IH]; intros d H; [reflexivity|]. cbn [fold_left fst snd].
  replace (dhas d k0) with true.
  - apply IH. intros k Hk. apply H. right. assumption.
  - symmetry. apply dhas_In. apply H. left. reflexivity.
Qed.

Lemma c23_idem : forall C d, NoDup (map fst (cd_default C)) ->
  set_defaults C (set_defaults C d) = set_defaults C d.
Proof.
  intros C d Hn. unfold set_defaults at 1. apply set_defaults_id. intros k Hk.
  apply dget_Some_iff in Hk. destruct Hk as [v Hv]. apply dget_Some_iff.
  destruct (c23 C d Hn) as [H1 H2]. destruct (dget d k) as [x|] eqn:E.
  - rewrite (H1 _ _ E). eauto.
  - rewrite (H2 _ E). eauto.
Qed.

Lemma c23_construct : forall C kw d', NoDup (map fst kw) -> construct C kw = Ok d' -> ~ In (u "set_defaults") (map fst kw) ->
  forall k,
    (~ In k (map fst kw) -> dget d' k = dget (cd_default C) k) /\
    (forall v, In (k, v) kw -> dget d' k = dget (fst (from_dict C (cd_default C) (VDict [(k, v)]))) k).
Proof.
  intros C kw d' Hn H Hsd k. unfold construct, construct_gen in H.
  destruct (dhas kw (u "self")); [discriminate|]. apply ret_msg_ok in H.
  apply dget_None in Hsd as Hsd'. rewrite Hsd' in H. rewrite ddel_id in H by assumption.
  rewrite <- from_dict_VDict in H. destruct (c09 _ _ _ _ Hn H k) as [H1 H2]. auto.
Qed.

(** ** C14 *)
Lemma fold_ddel_get : forall (ks : list ustr) (d : dict value) k,
  dget (fold_left ddel ks d) k = if umem k ks then None else dget d k.
Proof.
  induction ks as [|x ks IH]; intros d k; simpl; [reflexivity|].
  rewrite IH, dget_ddel. destruct (umem k ks) eqn:E.
  - rewrite orb_true_r. reflexivity.
  - rewrite orb_false_r. reflexivity.
Qed.

Lemma fold_ddel_filter : forall (ks : list ustr) (d : dict value),
  fold_left ddel ks d = filter (fun kv => negb (umem (fst kv) ks)) d.
Proof.
  induction ks as [|x ks IH]; intro d; simpl.
  - induction d as [|y d IHd]; [reflexivity|]. simpl. f_equal. assumption.
  - rewrite IH. unfold ddel. clear IH. induction d as [|[k v] d IHd]; [reflexivity|]. simpl.
    replace (ueqb k x) with (ueqb x k) by apply ueqb_sym.
    destruct (ueqb x k); simpl; [assumption|]. destruct (umem k ks); simpl; [assumption|]. f_equal. assumption.
Qed.

Lemma umem_filter : forall k f l, umem k (filter f l) = umem k l && f k.
Proof.
  intros k f l. induction l as [|x l IH]; [reflexivity|]. simpl. destruct (f x) eqn:E; simpl; rewrite IH.
  - destruct (ueqb k x) eqn:Ek; simpl; [|reflexivity]. apply ueqb_eq in Ek. subst. rewrite E. reflexivity.
  - destruct (ueqb k x) eqn:Ek; simpl; [|reflexivity]. apply ueqb_eq in Ek. subst. rewrite E, andb_false_r. reflexivity.
Qed.

Lemma filter_ext_in_fst : forall (f g : ustr * value -> bool) d,
  (forall kv, In kv d -> f kv = g kv) -> filter f d = filter g d.
Proof. intros f g d H. apply filter_ext_in. assumption. Qed.

Lemma weed_filter : forall C d, weed C d = filter (fun kv => dhas (cd_param C) (fst kv)) d.
Proof.
  intros C d. unfold weed. rewrite fold_ddel_filter. apply filter_ext_in. intros [k v] Hin. cbn [fst].
  rewrite umem_filter. replace (umem k (dkeys d)) with true.
  - rewrite andb_true_l, negb_involutive. reflexivity.
  - symmetry. apply umem_In. apply in_map_iff. exists (k, v). auto.
Qed.

Lemma rm_blanks_filter : forall d, NoDup (map fst d) ->
  rm_blanks d = filter (fun kv => truthy (snd kv)) d.
Proof.
  intros d Hn. unfold rm_blanks. rewrite fold_ddel_filter. apply filter_ext_in. intros [k v] Hin. cbn [fst snd].
  rewrite umem_filter. replace (umem k (dkeys d)) with true.
  - rewrite andb_true_l. rewrite (In_dget _ _ _ Hn Hin). apply negb_involutive.
  - symmetry. apply umem_In. apply in_map_iff. exists (k, v). auto.
Qed.

Lemma filter_twice : forall A (f : A -> bool) l, filter f (filter f l) = filter f l.
Proof.
  intros A f. induction l as [|x l IH]; [reflexivity|]. simpl. destruct (f x) eqn:E; simpl; [rewrite E, IH|]; auto.
Qed.

Lemma c14_weed : forall C d k v, NoDup (map fst d) ->
  (dget (weed C d) k = Some v <-> dget d k = Some v /\ In k (map fst (cd_param C))).
Proof.
  intros C d k v Hn. rewrite weed_filter, (dget_filter (fun x => dhas (cd_param C) x)). rewrite <- dhas_In.
  destruct (dhas (cd_param C) k); intuition congruence.
Qed.

Lemma c14_rm_blanks : forall d k v, NoDup (map fst d) ->
  (dget (rm_blanks d) k = Some v <-> dget d k = Some v /\ ~ empty_value v).
Proof.
  intros d k v Hn. rewrite rm_blanks_filter by assumption. rewrite <- truthy_empty. split.
  - intro H. apply dget_In in H. apply filter_In in H. destruct H as [H1 H2].
    split; [apply In_dget; assumption|]. simpl in H2. congruence.
  - intros [H1 H2]. apply In_dget; [apply filter_nodup_keys; assumption|].
    apply filter_In. split; [apply dget_In; assumption|]. simpl. destruct (truthy v); congruence.
Qed.

Lemma c14_only_extras : forall C d,
  only_extras C d = true <-> (forall k, In k (map fst d) -> ~ In k (map fst (cd_param C))).
Proof.
  intros C d. unfold only_extras. split.
  - intros H k Hk Hp. destruct (filter _ (dkeys d)) eqn:E; [|discriminate].
    assert (Hin : In k (filter (fun k => dhas (cd_param C) k) (dkeys d))) by (apply filter_In; split; [assumption|apply dhas_In; assumption]).
    rewrite E in Hin. destruct Hin.
  - intro H. destruct (filter _ (dkeys d)) as [|k l] eqn:E; [reflexivity|]. exfalso.
    assert (Hin : In k (filter (fun k => dhas (cd_param C) k) (dkeys d))) by (rewrite E; left; reflexivity).
    apply filter_In in Hin. destruct Hin as [H1 H2]. apply dhas_In in H2. exact (H k H1 H2).
Qed.

Lemma c14_idem : forall C d, NoDup (map fst d) ->
  weed C (weed C d) = weed C d /\ rm_blanks (rm_blanks d) = rm_blanks d.
Proof.
  intros C d Hn. split.
  - rewrite !weed_filter. apply filter_twice.
  - rewrite (rm_blanks_filter d) by assumption. rewrite rm_blanks_filter by (apply filter_nodup_keys; assumption).
    apply filter_twice.
Qed.
