(** For C168 and C169: messages and the SQL storage. *)
From Coq Require Import List NArith ZArith Bool String Lia ZifyBool ZifyN.
From Verif Require Import Base.Ustr Base.UstrLemmas Base.Percent Model.Cls Model.Value Model.Json Model.Pspec Model.Calendar
  Model.Tables Model.Message Model.Sql Model.Layout Spec.JsonSpec Spec.LayoutSpec Spec.StorageSpec Proofs.ValueLemmas Proofs.JsonLemmas
  Proofs.MessageLemmas Proofs.EncodeLemmas Proofs.SqlLemmas Proofs.LayoutLemmas.
Import ListNotations.
Open Scope list_scope.
Open Scope N_scope.

(** ** to_dict keeps texts texts *)

Lemma cp_app : forall a b, code_points a -> code_points b -> code_points (a ++ b).
Proof. intros a b Ha Hb c Hc. apply in_app_iff in Hc. destruct Hc; auto. Qed.
Lemma cp_printable : forall s, Forall printable s -> code_points s.
Proof. intros s H c Hc. rewrite Forall_forall in H. specialize (H c Hc). unfold printable in H. lia. Qed.
Lemma cp_dec : forall z, code_points (dec_Z z).
Proof. intro z. apply cp_printable. apply (jtext_printable (VInt z)). Qed.
Lemma cp_pad2 : forall z, code_points (pad2 z).
Proof.
  intro z. unfold pad2. destruct (z <? 10)%Z; [|apply cp_dec]. change (48 :: dec_Z z) with ([48] ++ dec_Z z).
  apply cp_app; [|apply cp_dec]. intros c [<-|[]]. lia.
Qed.
Lemma cp_lit : forall s, forallb (fun c => c <? 1114112) s = true -> code_points s.
Proof. intros s H c Hc. rewrite forallb_forall in H. specialize (H c Hc). lia. Qed.
Lemma cp_iso : forall b z t, to_iso b z = Ok t -> code_points t.
Proof.
  intros b z t H. unfold to_iso in H. destruct (z =? 0)%Z; [discriminate|]. unfold to_iso_at in H.
  destruct (if (z =? 0)%Z then 0%Z else z); destruct (gmtime _) as [m|]; cbn [bind] in H; try discriminate;
  (destruct (_ || _ || _); [discriminate|]); apply (f_equal (fun r => match r with Ok x => x | Err _ => t end)) in H;
  cbn beta iota in H; subst t; destruct b;
  repeat first [apply cp_app | apply cp_dec | apply cp_pad2 | apply cp_lit; reflexivity].
Qed.
Lemma cp_join : forall l, (forall s, In s l -> code_points s) -> code_points (join [32] l).
Proof.
  induction l as [|s l IH]; intro H; [intros c []|]. destruct l as [|s' l]; [apply H; left; reflexivity|].
  change (join [32] (s :: s' :: l)) with (s ++ [32] ++ join [32] (s' :: l)).
  apply cp_app; [apply H; left; reflexivity|]. apply cp_app; [apply cp_lit; reflexivity|]. apply IH. intros x Hx. apply H. right. assumption.
Qed.

Lemma tp_iter : forall v l, texts_of_python v -> py_iter v = Ok l -> forall x, In x l -> texts_of_python x.
Proof.
  intros v l Hv H x Hx. destruct Hv as [| | | |s Hs|l' Hl|d Hd|c d Hd]; try discriminate H; injection H as <-.
  - apply in_map_iff in Hx. destruct Hx as [c [<- Hc]]. constructor. intros y [<-|[]]. auto.
  - auto.
  - apply in_map_iff in Hx. destruct Hx as [[k y] [<- Hc]]. constructor. apply (Hd k y Hc).
  - apply in_map_iff in Hx. destruct Hx as [[k y] [<- Hc]]. constructor. apply (Hd k y Hc).
Qed.
Lemma strs_in : forall l ss, strs_of l = Some ss -> forall s, In s ss -> In (VStr s) l.
Proof.
  induction l as [|x l IH]; intros ss H s Hs.
  - injection H as <-. contradiction.
  - unfold strs_of in H. cbn [map all_some] in H. destruct x; try discriminate.
    destruct (all_some _) as [r|] eqn:E; [|discriminate]. injection H as <-. destruct Hs as [<-|Hs]; [left; reflexivity|].
    right. apply (IH r E s Hs).
Qed.
Lemma cp_sp_join : forall v t, texts_of_python v -> sp_join v = Ok t -> code_points t.
Proof.
  intros v t Hv H. unfold sp_join in H. destruct (py_iter v) as [l|] eqn:E; [|discriminate].
  destruct (strs_of l) as [ss|] eqn:Es; [|discriminate]. injection H as <-. apply cp_join. intros s Hs.
  apply (strs_in l ss Es) in Hs. apply (tp_iter v l Hv E) in Hs. inversion Hs. assumption.
Qed.

Section Step.
  Variable f : value -> res value.
  (** what [f] makes of [v] and of the values below it keeps to texts *)
  Definition fine (v : value) : Prop := (forall y, f v = Ok y -> texts_of_python y) /\
    (forall l, v = VList l -> forall x y, In x l -> f x = Ok y -> texts_of_python y) /\ texts_of_python v.

  Lemma tp_in : forall l x, texts_of_python (VList l) -> In x l -> texts_of_python x.
  Proof. intros l x Hv Hx. inversion Hv. auto. Qed.

  Lemma tp_mapM : forall (g : value -> res value) l r, (forall x y, In x l -> g x = Ok y -> texts_of_python y) ->
    mapM g l = Ok r -> texts_of_python (VList r).
  Proof.
    intros g l r H E. constructor. intros y Hy. apply mapM_ok in E.
    induction E as [|a b l r Hab E IH]; [contradiction|]. destruct Hy as [<-|Hy].
    - apply (H a b); [left; reflexivity|assumption].
    - apply IH; [|assumption]. intros a' b' Ha. apply H. right. assumption.
  Qed.

  Lemma tp_msg_ser : forall x y, (forall y, f x = Ok y -> texts_of_python y) -> texts_of_python x ->
    msg_ser_dict f x = Ok y -> texts_of_python y.
  Proof.
    intros x y Hx Ht H. destruct x; try discriminate H; try (injection H as <-; assumption). apply Hx. exact H.
  Qed.
  Lemma tp_link_ser : forall x y, (forall y, f x = Ok y -> texts_of_python y) -> texts_of_python x ->
    link_ser_dict f x = Ok y -> texts_of_python y.
  Proof.
    intros x y Hx Ht H. destruct x; try discriminate H; try (injection H as <-; assumption). unfold link_ser_dict in H.
    destruct (subclass c C_oidc_Link); [|discriminate]. apply Hx. exact H.
  Qed.

  Lemma tp_post : forall v y, fine v -> td_post f v = Ok y -> texts_of_python y.
  Proof.
    intros v y [Hf [Hl Hv]] H. unfold td_post in H. destruct v as [| | | | |l| |]; try (injection H as <-; assumption).
    - destruct l as [|x l]; [injection H as <-; assumption|]. destruct x; try (injection H as <-; assumption).
      match type of H with match ?m with _ => _ end = _ => destruct m as [r|] eqn:E; [|discriminate] end.
      injection H as <-. eapply tp_mapM; [|exact E]. apply Hl. reflexivity.
    - apply Hf. exact H.
  Qed.

  Lemma tp_entry : forall v s y, fine v -> td_entry f s v = Ok y -> texts_of_python y.
  Proof.
    intros v [s|] y F H; [|eapply tp_post; eassumption]. assert (F' := F). destruct F' as [Hf [Hl Hv]].
    assert (J : forall t, json_dumps v = Ok t -> texts_of_python (VStr t)).
    { intros t E. unfold json_dumps in E. destruct (jerr v); [discriminate|]. injection E as <-. constructor.
      apply cp_printable, jtext_printable. }
    assert (St : forall b, stamp_ser b v = Ok y -> texts_of_python y).
    { intros b E. unfold stamp_ser in E.
      assert (G : forall a, bind (to_iso b a) (fun t => Ok (VStr t)) = Ok y -> texts_of_python y).
      { intros a Ea. destruct (to_iso b a) as [t|] eqn:Et; [|discriminate Ea]. cbn [bind] in Ea. injection Ea as <-.
        constructor. exact (cp_iso b a t Et). }
      destruct v; try discriminate E; (destruct (py_int _) as [a|]; [|discriminate E]); cbn [bind] in E; apply (G a E). }
    destruct s; cbn [td_entry ser_dict] in H; auto.
    - destruct v; try discriminate H. eapply tp_post; [exact F|exact H].
    - assert (G : match sp_join v with Ok t => Ok (VStr t) | Err e => Err e end = Ok y -> texts_of_python y).
      { intro E. destruct (sp_join v) as [t|] eqn:Es; [|discriminate E]. injection E as <-. constructor. eapply cp_sp_join; eassumption. }
      destruct v; auto. injection H as <-. assumption.
    - destruct (json_dumps v) as [t|] eqn:E; [|discriminate]. injection H as <-. auto.
    - apply (tp_msg_ser v y Hf Hv H).
    - destruct v; try discriminate H; try (injection H as <-; assumption). apply Hf. exact H.
    - destruct v as [| | | | |l| |]; try discriminate H; try (injection H as <-; assumption); [|apply Hf; exact H].
      destruct l as [|x l]; [discriminate|]. assert (Hx : texts_of_python x) by (eapply tp_in; [exact Hv|left; reflexivity]).
      destruct x; try discriminate H; try (injection H as <-; assumption). eapply Hl; [reflexivity|left; reflexivity|exact H].
    - destruct v as [| | | |s|l|d|c d]; try discriminate H.
      + injection H as <-. constructor. apply (tp_iter _ _ Hv). reflexivity.
      + destruct (mapM (msg_ser_dict f) l) as [r|] eqn:E; [|discriminate]. injection H as <-.
        eapply tp_mapM; [|exact E]. intros x y Hx. apply tp_msg_ser; [intro; apply (Hl l eq_refl x _ Hx)|].
        eapply tp_in; [exact Hv|exact Hx].
      + injection H as <-. constructor. apply (tp_iter _ _ Hv). reflexivity.
      + injection H as <-. constructor. apply (tp_iter _ _ Hv). reflexivity.
    - destruct v as [| | | |s|l|d|c d]; try discriminate H; try (injection H as <-; assumption).
      + destruct (mapM (link_ser_dict f) l) as [r|] eqn:E; [|discriminate]. injection H as <-.
        eapply tp_mapM; [|exact E]. intros x y Hx. apply tp_link_ser; [intro; apply (Hl l eq_refl x _ Hx)|].
        eapply tp_in; [exact Hv|exact Hx].
      + destruct (subclass c C_oidc_Link); [|discriminate]. apply Hf. exact H.
    - apply (St false). exact H.
    - apply (St true). exact H.
  Qed.
End Step.

Definition keeps (v : value) : Prop := texts_of_python v -> forall y, to_dict_v v = Ok y -> texts_of_python y.

Lemma keeps_dict : forall C d r, (forall k x, In (k, x) d -> keeps x /\ forall l, x = VList l -> forall z, In z l -> keeps z) ->
  (forall k x, In (k, x) d -> code_points k /\ texts_of_python x) -> to_dict C d = Ok r -> texts_of_python (VDict r).
Proof.
  intros C d r Hk Ht H. constructor. unfold to_dict in H. apply mapM_ok in H.
  intros k y Hy. revert Hk Ht. induction H as [|[k' x] [k2 y'] d r Hxy H IH]; intros Hk Ht; [contradiction|].
  destruct Hy as [Hy|Hy].
  - injection Hy as -> ->. cbn [fst snd] in Hxy.
    destruct (td_entry to_dict_v (ser_of (cd_param C) k') x) as [z|] eqn:E; [|discriminate].
    assert (k' = k /\ z = y) as [-> ->] by (split; congruence).
    destruct (Ht k x (or_introl eq_refl)) as [H1 H2]. destruct (Hk k x (or_introl eq_refl)) as [K1 K2]. split; [assumption|].
    eapply tp_entry; [|exact E]. split; [|split; [|exact H2]].
    + exact (K1 H2).
    + intros l El z b Hz. apply (K2 l El z Hz). subst x. inversion H2. auto.
  - apply IH; [assumption| |]; intros a b Hab; [apply (Hk a b)|apply (Ht a b)]; right; assumption.
Qed.

Lemma keeps_all : forall v, keeps v /\ forall l, v = VList l -> forall z, In z l -> keeps z.
Proof.
  intro v. induction v as [|b|z|q|s|l IH|d IH|c d IH] using value_ind'; (split; [|intros l' El; try discriminate El]);
    try (intros _ y Hy; discriminate Hy).
  - injection El as <-. rewrite Forall_forall in IH. intros z Hz. apply (IH z Hz).
  - intros Ht y Hy. rewrite to_dict_v_msg in Hy. destruct (to_dict (cdef c) d) as [r|] eqn:E; [|discriminate]. injection Hy as <-.
    inversion Ht; subst. eapply keeps_dict; [|eassumption|exact E]. intros k x Hx. rewrite Forall_forall in IH. apply (IH (k, x) Hx).
Qed.

Lemma to_dict_texts : forall C d r, texts_of_python (VDict d) -> to_dict C d = Ok r -> texts_of_python (VDict r).
Proof.
  intros C d r Ht H. inversion Ht; subst. eapply keeps_dict; [|eassumption|exact H]. intros k x _. apply keeps_all.
Qed.

(** ** messages *)

Theorem message_layout : forall C d i, texts_of_python (VDict d) ->
  match to_json C d with
  | Ok t => exists t' w, to_json_at C d 0 i = Ok (VStr t') /\ json_loads t' = Ok w /\ json_loads t = Ok w
  | Err e => to_json_at C d 0 i = Err e
  end.
Proof.
  intros C d i Ht. unfold to_json, to_json_at. destruct (to_dict C d) as [r|e] eqn:E; cbn [bind]; [|reflexivity].
  assert (A := layout_same i (VDict r) (to_dict_texts C d r Ht E)).
  destruct (json_dumps (VDict r)) as [t|e].
  - destruct A as [t' [w [H1 H2]]]. exists t', w. rewrite H1. split; [reflexivity|assumption].
  - rewrite A. reflexivity.
Qed.

Theorem message_layout_read : forall C d i t, texts_of_python (VDict d) -> to_json C d = Ok t ->
  exists t', to_json_at C d 0 i = Ok (VStr t') /\ forall C' d0, from_json C' d0 t' = from_json C' d0 t.
Proof.
  intros C d i t Ht H. assert (A := message_layout C d i Ht). rewrite H in A. destruct A as [t' [w [H1 [H2 H3]]]].
  exists t'. split; [assumption|]. intros C' d0. unfold from_json, from_json_gen. rewrite H2, H3. reflexivity.
Qed.

Theorem lower_level : forall C d n i,
  match to_json_at C d (S n) i with
  | Ok v => (exists r, v = VDict r) /\ json_dumps v = to_json C d
  | Err e => to_json C d = Err e
  end.
Proof.
  intros C d n i. unfold to_json_at, to_json. destruct (to_dict C d) as [r|e]; cbn [bind]; [|reflexivity].
  split; [exists r|]; reflexivity.
Qed.

(** ** the SQL storage *)

Definition row_ok (r : row) : Prop := scalars (r_owner r) = true /\ scalars (r_data r) = true.
Lemma step_rows : forall q o, op_texts o -> Forall row_ok (q_rows q) -> Forall row_ok (q_rows (fst (qexec q o))).
Proof.
  intros q [k v|k v|k|] Ho H; cbn [qexec fst] in *; rewrite Forall_forall in *; intros r Hr.
  - unfold sql_set, sql_delete, commit in Hr. cbn [fst q_rows q_disc q_next] in Hr. apply in_app_iff in Hr.
    destruct Hr as [Hr|[<-|[]]]; [|exact Ho]. apply filter_In in Hr. apply H. tauto.
  - unfold sql_update, commit in Hr. cbn [q_rows] in Hr. apply in_map_iff in Hr. destruct Hr as [x [Hx Hin]]. specialize (H x Hin).
    destruct (owned k x); subst r; [|assumption]. split; [apply H|apply Ho].
  - unfold sql_delete in Hr. cbn [fst q_rows] in Hr. apply filter_In in Hr. apply H. tauto.
  - apply H. exact Hr.
Qed.
Lemma run_rows : forall h q, Forall op_texts h -> Forall row_ok (q_rows q) -> Forall row_ok (q_rows (qrun q h)).
Proof.
  induction h as [|o h IH]; intros q Ho H; [assumption|]. inversion Ho; subst. unfold qrun. cbn [fold_left]. apply IH; [assumption|].
  apply step_rows; assumption.
Qed.

Lemma find_in : forall k v rows, single rows -> (value_of rows k = Some v <-> exists i, In (mkRow i k v) rows).
Proof.
  intros k v rows. unfold value_of, single. induction rows as [|[i o x] rows IH]; intro H; cbn [find map r_owner] in *.
  - split; [discriminate|intros [i []]].
  - inversion H as [|? ? Hn Hd]; subst. destruct (owned k (mkRow i o x)) eqn:E.
    + apply owned_iff in E. cbn [r_owner] in E. subst o. cbn [option_map r_data]. split.
      * intro Hx. injection Hx as ->. exists i. left. reflexivity.
      * intros [j [Hj|Hj]]; [congruence|]. exfalso. apply Hn. apply in_map_iff. exists (mkRow j k v). split; [reflexivity|assumption].
    + rewrite IH by assumption. split; intros [j Hj]; exists j; [right; assumption|]. destruct Hj as [Hj|Hj]; [|assumption].
      injection Hj as -> -> ->. assert (owned k (mkRow j k v) = true) by (apply owned_iff; reflexivity). congruence.
Qed.

Theorem sql_text : forall h, (forall o, In o h -> op_texts o) ->
  exists t rows, sql_str (qrun sql_empty h) = Ok t /\ json_loads t = Ok (VList rows) /\
    (forall r, In r rows -> exists i k v, r = VList [VInt i; VStr k; VStr v; VNone]) /\
    forall k v, qlatest k h = Some v <-> exists i, In (VList [VInt i; VStr k; VStr v; VNone]) rows.
Proof.
  intros h Ho. assert (R : Forall row_ok (q_rows (qrun sql_empty h))).
  { apply run_rows; [apply Forall_forall; assumption|constructor]. }
  destruct (run_both h sql_empty) as [S V]; [constructor|].
  set (rows := q_rows (qrun sql_empty h)) in *.
  destruct (layout_codec (Some 2%Z) (VList (map (fun r => VList (columns r)) rows))) as [t [H1 H2]].
  { constructor. intros x Hx. apply in_map_iff in Hx. destruct Hx as [r [<- Hr]]. rewrite Forall_forall in R. destruct (R r Hr) as [Ra Rb].
    constructor. intros y [<-|[<-|[<-|[<-|[]]]]]; constructor; assumption. }
  exists t, (map (fun r => VList (columns r)) rows). split; [exact H1|]. split; [exact H2|]. split.
  - intros r Hr. apply in_map_iff in Hr. destruct Hr as [[i k v] [<- _]]. eexists _, _, _. reflexivity.
  - intros k v. assert (Q : qlatest k h = value_of rows k) by (unfold rows; symmetry; apply V).
    rewrite Q, (find_in k v rows S). split; intros [i Hi]; exists i.
    + apply in_map_iff. exists (mkRow i k v). split; [reflexivity|assumption].
    + apply in_map_iff in Hi. destruct Hi as [[i' k' v'] [E Hi]]. unfold columns in E. cbn [r_id r_owner r_data] in E.
      injection E as -> -> ->. assumption.
Qed.
