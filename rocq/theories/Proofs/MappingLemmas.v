(** The mapping methods that messages inherit. *)
From Coq Require Import List NArith ZArith Bool String Lia.
From Verif Require Import Base.Ustr Base.UstrLemmas Model.Cls Model.Value Model.Pspec Model.Tables Model.Message Model.Mapping
  Spec.MessageSpec Spec.RoundTripSpec Spec.MappingSpec Proofs.ValueLemmas Proofs.MessageLemmas Proofs.RoundTrip.
Import ListNotations.
Open Scope list_scope.

Definition oabs (d : dict value) : omap := (map fst d, dget d).

Lemma same_refl : forall s, same s s.
Proof. intro s. split; reflexivity. Qed.
Lemma same_trans : forall a b c, same a b -> same b c -> same a c.
Proof. intros a b c [H1 H2] [H3 H4]. split; [congruence|]. intro k. rewrite H2. apply H4. Qed.

Lemma oput_dset : forall d k v, same (oabs (dset d k v)) (oput (oabs d) k v).
Proof.
  intros d k v. split; cbn [fst snd oabs oput].
  - destruct (in_dec ueq_dec k (map fst d)) as [H|H].
    + apply dset_keys_in. exact H.
    + rewrite dset_new by exact H. apply map_app.
  - intro x. unfold aset. rewrite dget_dset. destruct (ueq_dec x k) as [->|Hn].
    + rewrite ueqb_refl. reflexivity.
    + apply ueqb_neq in Hn. rewrite Hn. reflexivity.
Qed.
Lemma oput_same : forall s t k v, same s t -> same (oput s k v) (oput t k v).
Proof.
  intros s t k v [H1 H2]. split; cbn [fst snd oput].
  - rewrite H1. reflexivity.
  - intro x. unfold aset. destruct (ueq_dec x k); auto.
Qed.
Lemma oputs_same : forall e s t, same s t -> same (oputs s e) (oputs t e).
Proof.
  induction e as [|[k v] e IH]; intros s t H; [exact H|]. apply IH. apply oput_same. exact H.
Qed.
Lemma oputs_dupdate : forall e d, same (oabs (dupdate d e)) (oputs (oabs d) e).
Proof.
  induction e as [|[k v] e IH]; intro d; [apply same_refl|]. rewrite dupdate_cons.
  eapply same_trans; [apply IH|]. apply (oputs_same e). apply oput_dset.
Qed.
Lemma ddel_remove : forall (d : dict value) k, map fst (ddel d k) = remove ueq_dec k (map fst d).
Proof.
  intros d k. induction d as [|[k0 v0] d IH]; [reflexivity|]. cbn [map fst remove].
  unfold ddel in *. cbn [filter fst]. destruct (ueq_dec k k0) as [->|Hn].
  - rewrite ueqb_refl. cbn [negb]. exact IH.
  - apply ueqb_neq in Hn. rewrite Hn. cbn [negb map fst]. rewrite IH. reflexivity.
Qed.
Lemma odel_ddel : forall d k, same (oabs (ddel d k)) (odel (oabs d) k).
Proof.
  intros d k. split; cbn [fst snd oabs odel]; [apply ddel_remove|].
  intro x. unfold aset. rewrite dget_ddel. destruct (ueq_dec x k) as [->|Hn].
  - rewrite ueqb_refl. reflexivity.
  - apply ueqb_neq in Hn. rewrite Hn. reflexivity.
Qed.

Lemma popitem_cons : forall k v (d : dict value), NoDup (map fst ((k, v) :: d)) -> m_popitem ((k, v) :: d) = (d, Ok (k, v)).
Proof.
  intros k v d H. inversion H as [|? ? Hn Hd]; subst. unfold m_popitem. cbn [dkeys map fst].
  unfold getitem, delitem. rewrite (In_dget ((k, v) :: d) k v H (or_introl eq_refl)).
  replace (dhas ((k, v) :: d) k) with true by (symmetry; apply dhas_In; left; reflexivity).
  unfold ddel. cbn [filter fst]. rewrite ueqb_refl. cbn [negb].
  change (filter (fun kv : ustr * value => negb (ueqb k (fst kv))) d) with (ddel d k). rewrite ddel_id by exact Hn. reflexivity.
Qed.
Lemma clear_empties : forall d : dict value, NoDup (map fst d) -> m_clear d = ([], Ok tt).
Proof.
  intros d. unfold m_clear. induction d as [|[k v] d IH]; intro H; [reflexivity|].
  change (List.length ((k, v) :: d)) with (S (List.length d)). cbn [clear_loop]. rewrite popitem_cons by exact H.
  inversion H; subst. apply IH. assumption.
Qed.

Lemma not_in_dget : forall (d : dict value) k, dget d k = None -> ~ In k (fst (oabs d)).
Proof. intros d k H. apply dget_None. exact H. Qed.

Lemma setitem_undeclared : forall C d k v, ~ In k (map fst (cd_param C)) -> setitem C d k v = (dset d k v, Ok tt).
Proof. intros C d k v H. unfold setitem. apply dget_None in H. rewrite H. reflexivity. Qed.

Definition undeclared (C : clsdef) (o : xop) : Prop :=
  match o with XSet k _ | XSetdefault k _ => ~ In k (map fst (cd_param C)) | _ => True end.

Lemma xstep_ostep : forall C d o d' r, NoDup (map fst d) -> undeclared C o -> xstep C d o = (d', r) ->
  NoDup (map fst d') /\ ostep (oabs d) o (oabs d') r.
Proof.
  intros C d o d' r Hn Ho H. destruct o as [k v|k|e|k|k dv| |k v| |k| | | |]; cbn [xstep undeclared] in *.
  - rewrite setitem_undeclared in H by exact Ho. injection H as <- <-. split; [apply dset_nodup; exact Hn|].
    apply SSet. apply oput_dset.
  - unfold delitem in H. destruct (dhas d k) eqn:E; injection H as <- <-.
    + split; [apply ddel_nodup; exact Hn|]. apply SDel; [apply dhas_In; exact E|apply odel_ddel].
    + split; [exact Hn|]. apply dhas_false in E. apply SDelMiss; [apply not_in_dget; exact E|apply same_refl].
  - injection H as <- <-. split; [apply dupdate_nodup; exact Hn|]. apply SUpdate. apply oputs_dupdate.
  - unfold getitem in H. destruct (dget d k) as [v|] eqn:E; injection H as <- <-; (split; [exact Hn|]).
    + apply SItem; [exact E|apply same_refl].
    + apply SItemMiss; [apply not_in_dget; exact E|apply same_refl].
  - unfold m_pop, getitem in H. destruct (dget d k) as [v|] eqn:E.
    + unfold delitem in H. replace (dhas d k) with true in H by (symmetry; apply dhas_true; eauto).
      injection H as <- <-. split; [apply ddel_nodup; exact Hn|]. apply SPop; [exact E|apply odel_ddel].
    + destruct dv as [v|]; injection H as <- <-; (split; [exact Hn|]);
        [apply SPopDefault|apply SPopMiss]; try (apply not_in_dget; exact E); apply same_refl.
  - destruct d as [|[k v] d].
    + injection H as <- <-. split; [exact Hn|]. apply SPopitemMiss; [reflexivity|apply same_refl].
    + rewrite popitem_cons in H by exact Hn. injection H as <- <-. split; [inversion Hn; assumption|].
      apply SPopitem with (r := map fst d); [reflexivity|apply In_dget; [exact Hn|left; reflexivity]|].
      assert (Ed : d = ddel ((k, v) :: d) k).
      { unfold ddel. cbn [filter fst]. rewrite ueqb_refl. cbn [negb].
        symmetry. apply (ddel_id d k). inversion Hn; assumption. }
      rewrite Ed at 1. apply odel_ddel.
  - unfold m_setdefault, getitem in H. destruct (dget d k) as [w|] eqn:E.
    + injection H as <- <-. split; [exact Hn|]. apply SSetdefault; [exact E|apply same_refl].
    + rewrite setitem_undeclared in H by exact Ho. injection H as <- <-. split; [apply dset_nodup; exact Hn|].
      apply SSetdefaultNew; [apply not_in_dget; exact E|apply oput_dset].
  - rewrite clear_empties in H by exact Hn. injection H as <- <-. split; [constructor|]. apply SClear. split; reflexivity.
  - injection H as <- <-. split; [exact Hn|]. apply SIn; [apply dhas_In|apply same_refl].
  - injection H as <- <-. split; [exact Hn|]. rewrite <- (map_length fst d). apply SLen. apply same_refl.
  - injection H as <- <-. split; [exact Hn|]. apply SKeys. apply same_refl.
  - injection H as <- <-. split; [exact Hn|]. apply SValues; [|apply same_refl]. cbn [oabs fst snd].
    assert (G : forall k v, In (k, v) d -> dget d k = Some v) by (intros; apply In_dget; assumption).
    generalize dependent (dget d). clear Hn Ho. induction d as [|[k v] d IH]; intros f G; constructor.
    + apply G. left. reflexivity.
    + apply IH. intros k0 v0 H. apply G. right. exact H.
  - injection H as <- <-. split; [exact Hn|]. apply SItems; [|apply same_refl]. cbn [oabs fst snd].
    assert (G : forall k v, In (k, v) d -> dget d k = Some v) by (intros; apply In_dget; assumption).
    generalize dependent (dget d). clear Hn Ho. induction d as [|[k v] d IH]; intros f G; constructor.
    + split; [reflexivity|]. apply G. left. reflexivity.
    + apply IH. intros k0 v0 H. apply G. right. exact H.
Qed.
Lemma c108 : forall C os d d' rs, NoDup (map fst d) ->
  (forall k v, In (XSet k v) os \/ In (XSetdefault k v) os -> ~ In k (map fst (cd_param C))) ->
  xruns C d os = (d', rs) -> oruns (map fst d, dget d) os (map fst d', dget d') rs /\ NoDup (map fst d').
Proof.
  intros C os. induction os as [|o os IH]; intros d d' rs Hn Ho H; cbn [xruns] in H.
  - injection H as <- <-. split; [constructor|exact Hn].
  - destruct (xstep C d o) as [d1 x] eqn:E1. destruct (xruns C d1 os) as [d2 xs] eqn:E2. injection H as <- <-.
    destruct (xstep_ostep C d o d1 x Hn) as [Hn1 Hs]; [|exact E1|].
    + destruct o; cbn [undeclared]; auto; eapply Ho; [left|right]; left; reflexivity.
    + destruct (IH d1 d2 xs Hn1) as [Hr Hn2]; [|exact E2|].
      * intros k v [Hin|Hin]; eapply Ho; [left|right]; right; exact Hin.
      * split; [|exact Hn2]. econstructor; [exact Hs|exact Hr].
Qed.

(** ** setdefault *)
Lemma c109 : forall C d k v, 
  (forall w, dget d k = Some w -> m_setdefault C d k v = (d, Ok w)) /\
  (dget d k = None -> (dget (cd_param C) k = None \/ exists s, dget (cd_param C) k = Some s /\ plain (Some s) v) ->
     exists d', m_setdefault C d k v = (d', Ok v) /\ forall x, dget d' x = aset (dget d) k (Some v) x).
Proof.
  intros C d k v. split.
  - intros w H. unfold m_setdefault, getitem. rewrite H. reflexivity.
  - intros H Hs. exists (dset d k v). split.
    + unfold m_setdefault, getitem. rewrite H. unfold setitem. destruct Hs as [Hs|(s & Hs & Hp)]; rewrite Hs; [reflexivity|].
      destruct (plain_idem _ _ Hp) as (_ & _ & Hm). specialize (Hm 11%nat). cbn [fd_spec] in Hm.
      change (lib_n 12) with the_lib in Hm. rewrite Hm. reflexivity.
    + intro x. apply (proj2 (oput_dset d k v)).
Qed.
