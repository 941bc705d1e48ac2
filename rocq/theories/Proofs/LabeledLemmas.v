(** Labelled views of the file storage, and LabeledDict. *)
From Coq Require Import List NArith ZArith Bool String Lia Arith.
From Verif Require Import Base.Ustr Base.UstrLemmas Base.Percent Base.PercentLemmas
  Model.Value Model.Converter Model.FileStore Model.Labeled Spec.CodecSpec Spec.StorageSpec
  Proofs.ValueLemmas Proofs.CodecLemmas Proofs.StorageLemmas Proofs.StorageHistory.
Import ListNotations.
Open Scope list_scope.
Open Scope N_scope.

(** the operation of the file storage a view operation comes to *)
Definition down (L : ustr) (o : vop) : op :=
  match o with
  | VSet k v => OSet (L ++ k) v
  | VGet k => OGet (L ++ k)
  | VDel k => ODel (L ++ k)
  | VHas k => OHas (L ++ k)
  | VKeys => OKeys
  | VItems => OItems
  | VLen | VUpdate _ => OLen
  end.
(** the answer of a view from that of the file storage *)
Definition up (C : conf) (L : ustr) (W : world) (o : vop) (r : outcome) : outcome :=
  match o, r with
  | VGet _, RVal (Err EKeyError) => RVal (Ok VNone)
  | VKeys, RKeys (Ok l) => RKeys (Ok (strip_label L l))
  | VItems, RItems (Ok l) => RItems (Ok (map (fun kv => (skipn (List.length L) (fst kv), snd kv))
      (filter (fun kv => startswith L (fst kv)) l)))
  | VLen, _ => RLen (v_len C L (tick W))
  | VUpdate _, _ => RUnit (Err EAttributeError)
  | _, r => r
  end.
Lemma vexec_down : forall C L W S o, exists r, exec C W S (down L o) = (fst (vexec C L W S o), r) /\
  snd (vexec C L W S o) = up C L W o r.
Proof.
  intros C L W S o. destruct o as [k v|k|k|k| | | |ava]; cbn [down exec vexec].
  - unfold v_set, labelled. destruct (set C (tick W) S (L ++ k) v) as [[W' S'] r]. eexists; split; reflexivity.
  - unfold v_getitem, get, labelled. destruct (getitem C (tick W) S (L ++ k)) as [[W' S'] [x|e]]; [eexists; split; reflexivity|].
    destruct e; eexists; split; reflexivity.
  - unfold v_del, labelled. destruct (del C (tick W) S (L ++ k)) as [[W' S'] r]. eexists; split; reflexivity.
  - eexists; split; reflexivity.
  - unfold v_keys. destruct (keys C (tick W) S) as [[W' S'] [l|e]]; eexists; split; reflexivity.
  - unfold v_items. destruct (items C (tick W) S) as [[W' S'] [l|e]]; eexists; split; reflexivity.
  - eexists; split; reflexivity.
  - eexists; split; reflexivity.
Qed.
Definition downs (lab : nat -> ustr) (h : list (nat * vop)) : list (nat * op) :=
  map (fun e => (fst e, down (lab (fst e)) (snd e))) h.
Lemma vrun_down : forall C lab h W P W' P' rs, vrun C lab W P h = (W', P', rs) ->
  exists rs', run C W P (downs lab h) = (W', P', rs').
Proof.
  intros C lab. induction h as [|[i o] h IH]; intros W P W' P' rs H; cbn [vrun downs map run fst snd] in *.
  - injection H as <- <- _. eauto.
  - destruct (vexec_down C (lab i) W (P i) o) as (r & -> & _). destruct (vexec C (lab i) W (P i) o) as [[W1 S1] r1]. cbn [fst].
    destruct (vrun C lab W1 (pset P i S1) h) as [[W2 P2] rs2] eqn:E. injection H as <- <- _.
    destruct (IH _ _ _ _ _ E) as [rs' E']. unfold downs in E'. rewrite E'. eauto.
Qed.

Lemma apart_ne : forall L M a b, apart L M -> M ++ a <> L ++ b.
Proof.
  intros L M a b [H1 H2] E. revert L H1 H2 E. induction M as [|x M IH]; intros L H1 H2 E.
  - apply H2. exists L. reflexivity.
  - destruct L as [|y L]; [apply H1; exists (x :: M); reflexivity|]. cbn in E. injection E as -> E.
    apply (IH L); auto.
    + intros [r ->]. apply H1. exists r. reflexivity.
    + intros [r ->]. apply H2. exists r. reflexivity.
Qed.
Lemma latest_down : forall lab i k h, (forall j, j <> i -> apart (lab i) (lab j)) -> forall a,
  fold_left (after_op (lab i ++ k)) (downs lab h) (option_map (pair i) a) = option_map (pair i) (fold_left (vafter i k) h a).
Proof.
  intros lab i k h Hap. induction h as [|[j o] h IH]; intro a; [reflexivity|]. cbn [downs map fold_left fst snd].
  rewrite <- IH. unfold downs. f_equal.
  assert (G : forall k', (if ueq_dec (lab j ++ k') (lab i ++ k) then true else false) =
                         (if Nat.eq_dec j i then if ueq_dec k' k then true else false else false)).
  { intro k'. destruct (Nat.eq_dec j i) as [->|Hj].
    - destruct (ueq_dec k' k) as [->|Hk]; destruct (ueq_dec _ _) as [E|E]; try reflexivity; [congruence|].
      apply app_inv_head in E. congruence.
    - destruct (ueq_dec _ _) as [E|E]; [|reflexivity]. exfalso. exact (apart_ne _ _ _ _ (Hap j Hj) E). }
  destruct o as [k' v|k'|k'|k'| | | |ava]; cbn [down after_op vafter]; try reflexivity; specialize (G k').
  - destruct (ueq_dec (lab j ++ k') _), (Nat.eq_dec j i); try destruct (ueq_dec k' k); try discriminate; subst; reflexivity.
  - destruct (ueq_dec (lab j ++ k') _), (Nat.eq_dec j i); try destruct (ueq_dec k' k); try discriminate; subst; reflexivity.
Qed.
Lemma down_legal : forall C L o, vlegal C L o -> legal C (down L o).
Proof. intros C L [k v|k|k|k| | | |ava] H; cbn [down legal vlegal] in *; auto. Qed.
Lemma startswith_app : forall L k, startswith L (L ++ k) = true.
Proof. intros. apply startswith_iff. eauto. Qed.
Lemma skipn_label : forall (L k : ustr), skipn (List.length L) (L ++ k) = k.
Proof. intros. rewrite skipn_app, skipn_all, Nat.sub_diag. reflexivity. Qed.
Lemma in_strip : forall L l k, In k (strip_label L l) <-> In (L ++ k) l.
Proof.
  intros L l k. unfold strip_label. rewrite in_map_iff. split.
  - intros (x & E & H). apply filter_In in H. destruct H as [H Hs]. apply startswith_iff in Hs. destruct Hs as [r ->].
    rewrite skipn_label in E. subst. exact H.
  - intro H. exists (L ++ k). split; [apply skipn_label|]. apply filter_In. split; [exact H|apply startswith_app].
Qed.
Lemma strip_nodup : forall L l, NoDup l -> NoDup (strip_label L l).
Proof.
  intros L l. induction 1 as [|x l Hx Hl IH]; [constructor|]. unfold strip_label in *. cbn [filter].
  destruct (startswith L x) eqn:E; [|exact IH]. cbn [map]. constructor; [|exact IH].
  apply startswith_iff in E. destruct E as [r ->]. rewrite skipn_label.
  intro H. apply (in_strip L l r) in H. contradiction.
Qed.

Theorem views : forall C lab D W i h o W' P' rs W'' S'' r,
  placed C W D -> flat W D -> no_files W D -> NoDup (map fst (w_files W)) ->
  (forall j, j <> i -> apart (lab i) (lab j)) ->
  Forall (fun e => vlegal C (lab (fst e)) (snd e)) h -> vlegal C (lab i) o ->
  vrun C lab W (fun _ => s_new) h = (W', P', rs) -> vexec C (lab i) W' (P' i) o = (W'', S'', r) ->
  vanswers (fun k => vlatest i k h) o r.
Proof.
  intros C lab D W i h o W' P' rs W'' S'' r H1 H2 H3 H4 Hap Hh Ho Hrun Hex.
  destruct (vrun_down _ _ _ _ _ _ _ _ Hrun) as [rs' Hr]. destruct (vexec_down C (lab i) W' (P' i) o) as (r' & Hd & Hu).
  rewrite Hex in Hd, Hu. cbn [fst snd] in Hd, Hu.
  assert (A : answers_on (fun k => startswith (lab i) k = true) (fun k => latest k (downs lab h)) (down (lab i) o) r').
  { apply (one_writer _ C D W i (downs lab h) _ W' P' rs' W'' S'' r'); auto; [|apply down_legal; exact Ho].
    apply Forall_forall. intros e He. apply in_map_iff in He. destruct He as ([j x] & <- & He). cbn [fst snd].
    rewrite Forall_forall in Hh. specialize (Hh _ He). cbn [fst snd] in Hh. split; [apply down_legal; exact Hh|].
    destruct (Nat.eq_dec j i) as [->|Hj]; [left; reflexivity|right].
    assert (N : forall k, ~ startswith (lab i) (lab j ++ k) = true).
    { intros k E. apply startswith_iff in E. destruct E as [s E]. exact (apart_ne _ _ _ _ (Hap j Hj) E). }
    destruct x; cbn [down avoids]; auto. }
  assert (G : forall k, latest (lab i ++ k) (downs lab h) = option_map (pair i) (vlatest i k h))
    by (intro k; exact (latest_down lab i k h Hap None)).
  destruct o as [k v|k|k|k| | | |ava]; cbn [down answers_on vanswers] in *.
  - subst r'. exact Hu.
  - specialize (A (startswith_app _ _)). rewrite G in A. subst r'. rewrite Hu. destruct (vlatest i k h); reflexivity.
  - subst r'. exact Hu.
  - specialize (A (startswith_app _ _)). rewrite G in A. subst r'. rewrite Hu. destruct (vlatest i k h); reflexivity.
  - destruct A as (l & -> & A1 & A2). exists (strip_label (lab i) l). split; [exact Hu|]. split; [apply strip_nodup; exact A1|].
    intro k. rewrite in_strip, (A2 _ (startswith_app _ _)), G. destruct (vlatest i k h); cbn; split; congruence.
  - destruct A as (l & -> & A1 & A2). eexists. split; [exact Hu|]. split.
    + rewrite map_map. cbn [fst].
      enough (E : map (fun x : ustr * value => skipn (List.length (lab i)) (fst x)) (filter (fun kv => startswith (lab i) (fst kv)) l) =
                  strip_label (lab i) (map fst l)) by (pose proof (strip_nodup (lab i) _ A1) as X; rewrite <- E in X; exact X).
      unfold strip_label. clear. induction l as [|[a b] l IH]; [reflexivity|]. cbn [map filter fst].
      destruct (startswith (lab i) a); cbn [map fst]; congruence.
    + intros k v. rewrite in_map_iff. split.
      * intros ((a & b) & E & H). apply filter_In in H. destruct H as [H Hs]. cbn [fst snd] in *.
        pose proof Hs as Hs'. apply startswith_iff in Hs'. destruct Hs' as [s ->]. rewrite skipn_label in E. injection E as -> ->.
        apply (A2 _ _ Hs) in H. destruct H as [w H]. rewrite G in H. destruct (vlatest i k h); cbn in H; congruence.
      * intro H. exists (lab i ++ k, v). cbn [fst snd]. rewrite skipn_label. split; [reflexivity|]. apply filter_In. cbn [fst].
        split; [|apply startswith_app]. apply (A2 _ _ (startswith_app _ _)). exists i. rewrite G, H. reflexivity.
  - exact I.
  - exact Hu.
Qed.

(** ** LabeledDict *)
Lemma ld_step : forall L d o k, dget (fst (ld_exec L d o)) (L ++ k) = dafter k (dget d (L ++ k)) o.
Proof.
  intros L d o k.
  assert (G : forall k', ueqb (L ++ k) (L ++ k') = if ueq_dec k' k then true else false).
  { intro k'. destruct (ueq_dec k' k) as [->|H]; [apply ueqb_refl|]. destruct (ueqb _ _) eqn:E; [|reflexivity].
    apply ueqb_eq, app_inv_head in E. congruence. }
  destruct o as [k' v|k' x|k'|k'|k'| |ava|]; cbn [ld_exec fst dafter]; try reflexivity; unfold labelled.
  - rewrite dget_dset, G. destruct (ueq_dec k' k); reflexivity.
  - destruct (dhas d (L ++ k')) eqn:E; cbn [fst].
    + rewrite dget_ddel, G. destruct (ueq_dec k' k); reflexivity.
    + destruct (ueq_dec k' k) as [->|H]; [|reflexivity]. apply dhas_false in E. exact E.
Qed.
Lemma ld_run_get : forall L h d k, dget (fst (ld_run L d h)) (L ++ k) = fold_left (dafter k) h (dget d (L ++ k)).
Proof.
  induction h as [|o h IH]; intros d k; [reflexivity|]. cbn [ld_run fold_left]. pose proof (ld_step L d o k) as E.
  destruct (ld_exec L d o) as [d1 r]. cbn [fst] in E. specialize (IH d1 k). destruct (ld_run L d1 h) as [d2 rs]. cbn [fst] in *.
  rewrite IH, E. reflexivity.
Qed.
Lemma ld_nodup : forall L h d, NoDup (map fst d) -> NoDup (map fst (fst (ld_run L d h))).
Proof.
  induction h as [|o h IH]; intros d H; [exact H|]. cbn [ld_run].
  assert (H1 : NoDup (map fst (fst (ld_exec L d o)))).
  { destruct o as [k' v|k' x|k'|k'|k'| |ava|]; cbn [ld_exec fst]; auto.
    - apply dset_nodup. exact H.
    - destruct (dhas d _); [apply ddel_nodup; exact H|exact H]. }
  destruct (ld_exec L d o) as [d1 r]. specialize (IH d1 H1). destruct (ld_run L d1 h). exact IH.
Qed.
Theorem labeled_dict : forall L h o, danswers (fun k => dlatest k h) o (snd (ld_exec L (fst (ld_run L [] h)) o)).
Proof.
  intros L h o. assert (G : forall k, dget (fst (ld_run L [] h)) (L ++ k) = dlatest k h) by (intro; apply ld_run_get).
  pose proof (ld_nodup L h [] (NoDup_nil _)) as Hn. destruct (ld_run L [] h) as [d rs]. cbn [fst] in *.
  destruct o as [k' v|k' x|k'|k'|k'| |ava|]; cbn [ld_exec snd danswers]; unfold labelled; try exact I.
  - reflexivity.
  - rewrite G. reflexivity.
  - rewrite G. reflexivity.
  - unfold dhas. rewrite G. destruct (dlatest k' h); reflexivity.
  - unfold dhas. rewrite G. destruct (dlatest k' h); reflexivity.
  - eexists. split; [reflexivity|]. split; [apply strip_nodup; exact Hn|]. intro k. rewrite in_strip, <- G.
    unfold dkeys. rewrite <- dget_Some_iff. destruct (dget d (L ++ k)); split; eauto; [congruence|intros [v H]; congruence|congruence].
Qed.
(** every key of a LabeledDict with a label has more than two characters *)
Lemma ld_long : forall L h d, (3 <= List.length L)%nat -> Forall (fun kv : ustr * value => (3 <= List.length (fst kv))%nat) d ->
  Forall (fun kv : ustr * value => (3 <= List.length (fst kv))%nat) (fst (ld_run L d h)).
Proof.
  intros L h. induction h as [|o h IH]; intros d HL H; [exact H|]. cbn [ld_run].
  assert (H1 : Forall (fun kv : ustr * value => (3 <= List.length (fst kv))%nat) (fst (ld_exec L d o))).
  { destruct o as [k' v|k' x|k'|k'|k'| |ava|]; cbn [ld_exec fst]; auto.
    - apply Forall_forall. intros [k v'] Hin. cbn [fst]. rewrite Forall_forall in H.
      assert (Hk : In k (map fst (dset d (labelled L k') v))) by (apply in_map_iff; exists (k, v'); auto).
      apply dset_keys in Hk. destruct Hk as [Hk| ->]; [|unfold labelled; rewrite app_length; lia].
      apply in_map_iff in Hk. destruct Hk as ([k0 v0] & <- & Hk). exact (H _ Hk).
    - destruct (dhas d _); [|exact H]. cbn [fst]. apply Forall_forall. intros [k v'] Hin. cbn [fst]. rewrite Forall_forall in H.
      assert (Hk : In k (map fst (ddel d (labelled L k')))) by (apply in_map_iff; exists (k, v'); auto).
      apply ddel_keys in Hk. destruct Hk as [Hk _]. apply in_map_iff in Hk. destruct Hk as ([k0 v0] & <- & Hk). exact (H _ Hk). }
  destruct (ld_exec L d o) as [d1 r]. specialize (IH d1 HL H1). destruct (ld_run L d1 h). exact IH.
Qed.
Theorem iteration_fails : forall (label : ustr) h k v, label <> [] -> dlatest k h = Some v ->
  snd (ld_exec (render label) (fst (ld_run (render label) [] h)) DIter) = RItems (Err EValueError).
Proof.
  intros label h k v Hl Hk. assert (HL : (3 <= List.length (render label))%nat).
  { destruct label; [congruence|]. unfold render. rewrite !app_length. cbn [List.length]. change (List.length (u "__")) with 2%nat. lia. }
  pose proof (ld_long (render label) h ([] : dict value) HL (Forall_nil _)) as H. pose proof (ld_run_get (render label) h ([] : dict value) k) as G.
  cbn [dget] in G. change (fold_left (dafter k) h None) with (dlatest k h) in G. rewrite Hk in G.
  revert H G. generalize (ld_run (render label) [] h). intros [d rs] H G. cbn [fst snd ld_exec] in *.
  destruct d as [|[x w] d]; [discriminate|]. pose proof (Forall_inv H) as H1. cbn [fst] in H1.
  destruct x as [|a [|b [|c x]]]; cbn [List.length] in H1; try lia. reflexivity.
Qed.
(** without a label the keys are taken apart *)
Lemma iter_unlabelled : forall d l, ld_iter [] d = Ok l <-> Forall2 (fun (kv : ustr * value) (p : ustr * value) => exists a b, fst kv = [a; b] /\ p = ([a], VStr [b])) d l.
Proof.
  intro d. induction d as [|[k v] d IH]; intro l.
  - cbn [ld_iter]. split; [intro H; injection H as <-; constructor|]. intro H. inversion H. reflexivity.
  - split.
    + intro H. destruct k as [|a [|b [|c k]]]; cbn [ld_iter] in H; try discriminate. destruct (ld_iter [] d) as [r|] eqn:E; [|discriminate]. cbn [bind] in H.
      change (startswith [] [a]) with true in H. cbv iota in H. injection H as <-. constructor; [exists a, b; split; reflexivity|]. apply IH. reflexivity.
    + intro H. inversion H as [|? ? ? r (a & b & E1 & E2) H2]; subst. cbn [fst] in E1. subst k. cbn [ld_iter]. apply IH in H2. rewrite H2. reflexivity.
Qed.
Lemma iter_errors : forall L d e, ld_iter L d = Err e -> e = EValueError.
Proof.
  intros L d. induction d as [|[k v] d IH]; intros e H; [discriminate|]. destruct k as [|a [|b [|c k]]]; cbn [ld_iter] in H; try congruence.
  destruct (ld_iter L d) as [r|] eqn:E; [discriminate|]. cbn [bind] in H. injection H as <-. apply IH. reflexivity.
Qed.
Lemma iteration_pairs : forall h l, let d := fst (ld_run (render []) [] h) in
  (snd (ld_exec (render []) d DIter) = RItems (Ok l) <-> Forall2 (fun (kv : ustr * value) (p : ustr * value) => exists a b, fst kv = [a; b] /\ p = ([a], VStr [b])) d l) /\
  (forall e, snd (ld_exec (render []) d DIter) = RItems (Err e) -> e = EValueError).
Proof.
  intros h l d. cbn [ld_exec snd render]. split; [|intros e H; injection H as H; exact (iter_errors _ _ _ H)].
  rewrite <- iter_unlabelled. split; [intro H; injection H as H; exact H|intros ->; reflexivity].
Qed.
