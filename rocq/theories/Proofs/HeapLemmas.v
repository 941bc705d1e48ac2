(** Lemmas on the objects shared by the instances of a class. *)
From Coq Require Import List NArith ZArith Bool String Lia PeanoNat.
From Verif Require Import Base.Ustr Model.Value Model.Pspec Model.Message Model.Heap Spec.HeapSpec Proofs.ValueLemmas.
Import ListNotations.
Open Scope list_scope.
Open Scope nat_scope.

Lemma replace_length : forall A (l : list A) i x, List.length (replace l i x) = List.length l.
Proof. induction l as [|y l IH]; intros [|i] x; cbn [replace List.length]; auto. Qed.
Lemma replace_same : forall A (l : list A) i x y, nth_error l i = Some y -> nth_error (replace l i x) i = Some x.
Proof. induction l as [|z l IH]; intros [|i] x y H; cbn in *; try discriminate; eauto. Qed.
Lemma replace_other : forall A (l : list A) i j x, i <> j -> nth_error (replace l i x) j = nth_error l j.
Proof. induction l as [|z l IH]; intros [|i] [|j] x H; cbn; auto; congruence. Qed.
Lemma replace_none : forall A (l : list A) i x, nth_error l i = None -> replace l i x = l.
Proof. induction l as [|z l IH]; intros [|i] x H; cbn in *; try discriminate; auto. rewrite IH; auto. Qed.
Lemma replace_last : forall A (l : list A) x y, replace (l ++ [x]) (List.length l) y = l ++ [y].
Proof. induction l as [|z l IH]; intros; cbn; [reflexivity|]. rewrite IH. reflexivity. Qed.
Lemma nth_last : forall A (l : list A) x, nth_error (l ++ [x]) (List.length l) = Some x.
Proof. induction l; cbn; auto. Qed.
Lemma nth_old : forall A (l r : list A) i, i < List.length l -> nth_error (l ++ r) i = nth_error l i.
Proof. intros. apply nth_error_app1. assumption. Qed.
Lemma nth_some : forall A (l : list A) i x, nth_error l i = Some x -> i < List.length l.
Proof. intros A l i x H. apply nth_error_Some. congruence. Qed.

Section C.
  Variable C : clsdef.
  Definition listdef (k : ustr) : Prop := exists l, dget (cd_default C) k = Some (VList l).

  Lemma dget_default : forall k, dget (class_default C) k =
    match dget (cd_default C) k with Some (VList _) => Some (HRef (LDef k)) | Some v => Some (HVal v) | None => None end.
  Proof.
    intro k. unfold class_default. induction (cd_default C) as [|[k0 v0] d IH]; [reflexivity|]. cbn [map fst snd dget].
    destruct (ueqb k k0) eqn:E; [|exact IH]. apply ueqb_eq in E. subst. destruct v0; reflexivity.
  Qed.

  Definition inv (ds : list (dict hval)) (n : nat) : Prop :=
    (forall i d k o, nth_error ds i = Some d -> dget d k = Some (HRef o) ->
       match o with LDef k' => k' = k /\ listdef k | LNew m => m < n end) /\
    (forall i j d e k k' m, nth_error ds i = Some d -> nth_error ds j = Some e ->
       dget d k = Some (HRef (LNew m)) -> dget e k' = Some (HRef (LNew m)) -> i = j /\ k = k').
  Definition winv (W : world) : Prop := inv (w_inst W) (List.length (w_new W)).

  Definition fresh (n n' : nat) (x : hval) : Prop := n <= n' /\ ((exists v, x = HVal v) \/ x = HRef (LNew n) /\ n < n').
  Lemma inv_set : forall ds n n' i d k x, inv ds n -> nth_error ds i = Some d -> fresh n n' x -> inv (replace ds i (dset d k x)) n'.
  Proof.
    intros ds n n' i d k x [I1 I2] Hi [Hn Hx].
    assert (G : forall j e k' o, nth_error (replace ds i (dset d k x)) j = Some e -> dget e k' = Some (HRef o) ->
                (j = i /\ k' = k /\ o = LNew n /\ n < n') \/ (exists e0, nth_error ds j = Some e0 /\ dget e0 k' = Some (HRef o))).
    { intros j e k' o Hj Hk. destruct (Nat.eq_dec i j) as [<-|E].
      - rewrite (replace_same _ _ _ _ _ Hi) in Hj. injection Hj as <-. rewrite dget_dset in Hk. destruct (ueqb k' k) eqn:E2.
        + apply ueqb_eq in E2. subst. destruct Hx as [[v ->]|[-> Hx]]; [discriminate|]. injection Hk as <-. auto.
        + right. eauto.
      - rewrite replace_other in Hj by exact E. eauto. }
    split.
    - intros j e k' o Hj Hk. destruct (G j e k' o Hj Hk) as [(-> & -> & -> & L)|(e0 & H1 & H2)]; [exact L|].
      specialize (I1 _ _ _ _ H1 H2). destruct o; [exact I1|lia].
    - intros j j' e e' k1 k2 m H1 H2 H3 H4.
      destruct (G _ _ _ _ H1 H3) as [(-> & -> & E & _)|(e0 & A1 & A2)]; destruct (G _ _ _ _ H2 H4) as [(-> & -> & E' & _)|(e1 & B1 & B2)].
      + auto.
      + injection E as ->. specialize (I1 _ _ _ _ B1 B2). cbn in I1. lia.
      + injection E' as ->. specialize (I1 _ _ _ _ A1 A2). cbn in I1. lia.
      + eapply I2; eassumption.
  Qed.
  (** replacing by a dictionary with no other list objects *)
  Lemma inv_sub : forall ds n i d e, inv ds n -> nth_error ds i = Some d ->
    (forall k o, dget e k = Some (HRef o) -> dget d k = Some (HRef o) \/ o = LDef k /\ listdef k) -> inv (replace ds i e) n.
  Proof.
    intros ds n i d e [I1 I2] Hi H.
    assert (G : forall j e' k' o, nth_error (replace ds i e) j = Some e' -> dget e' k' = Some (HRef o) ->
                (o = LDef k' /\ listdef k') \/ (exists e0, nth_error ds j = Some e0 /\ dget e0 k' = Some (HRef o))).
    { intros j e' k' o Hj Hk. destruct (Nat.eq_dec i j) as [<-|E].
      - rewrite (replace_same _ _ _ _ _ Hi) in Hj. injection Hj as <-. destruct (H _ _ Hk) as [?|?]; eauto.
      - rewrite replace_other in Hj by exact E. eauto. }
    split.
    - intros j e' k' o Hj Hk. destruct (G _ _ _ _ Hj Hk) as [[-> L]|(e0 & H1 & H2)]; [auto|eapply I1; eassumption].
    - intros j j' e1 e2 k1 k2 m H1 H2 H3 H4. destruct (G _ _ _ _ H1 H3) as [[E _]|(a & A1 & A2)]; [discriminate|].
      destruct (G _ _ _ _ H2 H4) as [[E _]|(b & B1 & B2)]; [discriminate|]. eapply I2; eassumption.
  Qed.
  Lemma inv_app : forall ds n d, inv ds n -> (forall k o, dget d k = Some (HRef o) -> o = LDef k /\ listdef k) -> inv (ds ++ [d]) n.
  Proof.
    intros ds n d [I1 I2] H.
    assert (G : forall j e k o, nth_error (ds ++ [d]) j = Some e -> dget e k = Some (HRef o) ->
                (o = LDef k /\ listdef k) \/ nth_error ds j = Some e).
    { intros j e k o Hj Hk. destruct (Nat.lt_ge_cases j (List.length ds)) as [L|L].
      - rewrite nth_old in Hj by exact L. auto.
      - rewrite nth_error_app2 in Hj by exact L. destruct (j - List.length ds) as [|q]; cbn in Hj; [injection Hj as <-; auto|destruct q; discriminate]. }
    split.
    - intros j e k o Hj Hk. destruct (G _ _ _ _ Hj Hk) as [[-> L]|H1]; [auto|eapply I1; eassumption].
    - intros j j' e1 e2 k1 k2 m H1 H2 H3 H4. destruct (G _ _ _ _ H1 H3) as [[E _]|A]; [discriminate|].
      destruct (G _ _ _ _ H2 H4) as [[E _]|B]; [discriminate|]. eapply I2; eassumption.
  Qed.

  Lemma store_facts : forall W d k v W' d', store W d k v = (W', d') ->
    w_inst W' = w_inst W /\ w_def W' = w_def W /\ (exists x, w_new W' = w_new W ++ x) /\
    exists x, d' = dset d k x /\ fresh (List.length (w_new W)) (List.length (w_new W')) x.
  Proof.
    intros W d k v W' d' H. unfold store in H.
    assert (P : forall v, (W, dset d k (HVal v)) = (W', d') -> w_inst W' = w_inst W /\ w_def W' = w_def W /\ (exists x, w_new W' = w_new W ++ x) /\
      exists x, d' = dset d k x /\ fresh (List.length (w_new W)) (List.length (w_new W')) x).
    { intros v0 E. injection E as <- <-. repeat split; [exists []; rewrite app_nil_r; reflexivity|]. eexists. split; [reflexivity|].
      split; [lia|left; eauto]. }
    destruct v; try exact (P _ H). injection H as <- <-. cbn. repeat split; [eauto|]. eexists. split; [reflexivity|].
    rewrite app_length. cbn. split; [lia|right; split; [reflexivity|lia]].
  Qed.

  (** a dictionary that is being loaded is the last instance *)
  Lemma load_facts : forall l W d W' d', load C W d l = Some (W', d') ->
    w_inst W' = w_inst W /\ w_def W' = w_def W /\ (exists x, w_new W' = w_new W ++ x) /\
    (inv (w_inst W ++ [d]) (List.length (w_new W)) -> inv (w_inst W ++ [d']) (List.length (w_new W'))) /\
    (forall k x, dget d k = Some x -> exists y, dget d' k = Some y) /\
    (forall k o, dget d' k = Some (HRef (LDef o)) -> dget d k = Some (HRef (LDef o)) /\
       forall v x, In (k, v) l -> fd_entry the_lib (cd_param C) k v <> Ok (Some x)) /\
    (forall k v x, In (k, v) l -> fd_entry the_lib (cd_param C) k v = Ok (Some x) -> exists y, dget d' k = Some y).
  Proof.
    induction l as [|[k v] l IH]; intros W d W' d' H; cbn [load] in H.
    - injection H as <- <-. refine (conj eq_refl (conj eq_refl (conj _ (conj _ (conj _ (conj _ _)))))).
      + exists []. rewrite app_nil_r. reflexivity.
      + auto.
      + eauto.
      + intros k o H. split; [exact H|]. intros v x [].
      + intros k v x [].
    - destruct (fd_entry the_lib (cd_param C) k v) as [[x|]|e] eqn:E; [| |discriminate].
      + destruct (store W d k x) as [W1 d1] eqn:S1. apply store_facts in S1. destruct S1 as (A1 & A2 & [xs A3] & y & -> & A4).
        apply IH in H. destruct H as (B1 & B2 & [ys B3] & B4 & B5 & B6 & B7).
        refine (conj _ (conj _ (conj _ (conj _ (conj _ (conj _ _)))))); try congruence.
        * exists (xs ++ ys). rewrite B3, A3, app_assoc. reflexivity.
        * intro I. rewrite <- A1. apply B4. rewrite A1. rewrite <- (replace_last _ (w_inst W) d). eapply inv_set; [exact I|apply nth_last|exact A4].
        * intros k0 z Hz. apply (B5 k0 (if ueqb k0 k then y else z)). rewrite dget_dset. destruct (ueqb k0 k); auto.
        * intros k0 o H. apply B6 in H. destruct H as [H H']. rewrite dget_dset in H. destruct (ueqb k0 k) eqn:E2.
          -- exfalso. injection H as ->. destruct A4 as [_ [[? ?]|[? _]]]; discriminate.
          -- split; [exact H|]. intros w z [E3|E3]; [|apply H'; exact E3]. injection E3 as <- <-. rewrite ueqb_refl in E2. discriminate.
        * intros k0 v0 z [E2|E2] Hz; [injection E2 as <- <-|eauto]. apply (B5 k y). apply dget_dset_same.
      + apply IH in H. destruct H as (B1 & B2 & B3 & B4 & B5 & B6 & B7). refine (conj B1 (conj B2 (conj B3 (conj B4 (conj B5 (conj _ _)))))).
        * intros k0 o H. apply B6 in H. destruct H as [H H']. split; [exact H|].
          intros w z [E2|E2]; [injection E2 as <- <-; rewrite E; discriminate|apply H'; exact E2].
        * intros k0 v0 z [E2|E2] Hz; [injection E2 as <- <-; congruence|eauto].
  Qed.

  Lemma default_refs : forall k o, In (k, HRef o) (class_default C) -> o = LDef k.
  Proof.
    intros k o H. unfold class_default in H. apply in_map_iff in H. destruct H as ([k0 v0] & E & _). cbn [fst snd] in E.
    destruct v0; injection E; intros; subst; try discriminate; congruence.
  Qed.
  Lemma dget_default_ref : forall k o, dget (class_default C) k = Some (HRef o) -> o = LDef k /\ listdef k.
  Proof.
    intros k o H. rewrite dget_default in H. unfold listdef. destruct (dget (cd_default C) k) as [[]|]; try discriminate. injection H as <-. eauto.
  Qed.
  Lemma dget_defaults : forall e d k, dget (fold_left (fun (d : dict hval) (kv : ustr * hval) => if dhas d (fst kv) then d else dset d (fst kv) (snd kv)) e d) k
    = match dget d k with Some x => Some x | None => dget e k end.
  Proof.
    induction e as [|[k0 x0] e IH]; intros d k; cbn [fold_left fst snd dget]; [destruct (dget d k); reflexivity|].
    rewrite IH. destruct (dhas d k0) eqn:H.
    - destruct (dget d k) eqn:E; [reflexivity|]. destruct (ueqb k k0) eqn:E2; [|reflexivity]. apply ueqb_eq in E2. subst.
      apply dhas_true in H. destruct H. congruence.
    - apply dhas_false in H. rewrite dget_dset. destruct (ueqb k k0) eqn:E2; [|reflexivity]. apply ueqb_eq in E2. subst. rewrite H. reflexivity.
  Qed.

  Lemma step_inv : forall W o, winv W -> winv (step C W o).
  Proof.
    intros W o I. destruct o as [sd kw|i k v|i k|i|i k l]; cbn [step].
    - destruct (load C W (if sd then class_default C else []) kw) as [[W' d]|] eqn:E; [|exact I]. apply load_facts in E.
      destruct E as (E1 & _ & _ & E4 & _). unfold winv. cbn [add_inst w_inst w_new]. rewrite E1. apply E4. apply inv_app; [exact I|].
      intros k o H. destruct sd; [|discriminate]. apply dget_default_ref. exact H.
    - destruct (nth_error (w_inst W) i) as [d|] eqn:Hi; [|exact I].
      assert (G : forall x, winv (let (W', d') := store W d k x in put_inst W' i d')).
      { intro x. destruct (store W d k x) as [W' d'] eqn:S1. apply store_facts in S1. destruct S1 as (A1 & A2 & _ & y & -> & A4).
        unfold winv. cbn [put_inst w_inst w_new]. rewrite A1. eapply inv_set; eassumption. }
      destruct (match dget (cd_param C) k with Some s => _ | None => _ end) as [[x|]|[]]; auto.
    - destruct (nth_error (w_inst W) i) as [d|] eqn:Hi; [|exact I]. unfold winv. cbn [put_inst w_inst w_new].
      eapply inv_sub; [exact I|exact Hi|]. intros k' o H. left. revert H. rewrite dget_ddel. destruct (ueqb k' k); [discriminate|auto].
    - destruct (nth_error (w_inst W) i) as [d|] eqn:Hi; [|exact I]. unfold winv. cbn [put_inst w_inst w_new].
      eapply inv_sub; [exact I|exact Hi|]. intros k o H. rewrite dget_defaults in H. destruct (dget d k); [auto|]. right. apply dget_default_ref. exact H.
    - destruct (nth_error (w_inst W) i) as [d|] eqn:Hi; [|exact I]. destruct (dget d k) as [[v|[q|n]]|]; try exact I; unfold winv, write; cbn [w_inst w_new].
      rewrite replace_length. exact I.
  Qed.
  Lemma start_inv : winv (start C).
  Proof. split; cbn; intros i; destruct i; discriminate. Qed.
  Lemma run_inv : forall h W, winv W -> winv (run C W h).
  Proof. induction h as [|o h IH]; intros W I; [exact I|]. apply IH. apply step_inv. exact I. Qed.

  (** ** a later instance does not see the objects made at run time *)
  Lemma load_same : forall l W V d, w_def W = w_def V -> List.length (w_new W) = List.length (w_new V) ->
    match load C W d l, load C V d l with
    | Some (W', d1), Some (V', d2) => d1 = d2 /\ exists x, w_new W' = w_new W ++ x /\ w_new V' = w_new V ++ x
    | None, None => True
    | _, _ => False
    end.
  Proof.
    induction l as [|[k v] l IH]; intros W V d H L; cbn [load].
    - split; [reflexivity|]. exists []. rewrite !app_nil_r. auto.
    - destruct (fd_entry the_lib (cd_param C) k v) as [[x|]|e]; [|apply IH; assumption|exact I].
      assert (G : exists W1 V1 d1 y, store W d k x = (W1, d1) /\ store V d k x = (V1, d1) /\ w_def W1 = w_def V1 /\
                  w_new W1 = w_new W ++ y /\ w_new V1 = w_new V ++ y).
      { unfold store. destruct x; try (exists W, V; do 2 eexists; rewrite !app_nil_r; repeat split; auto; fail);
          try (exists W, V; eexists; exists []; rewrite !app_nil_r; repeat split; assumption).
        rewrite L. do 4 eexists. repeat split; assumption. }
      destruct G as (W1 & V1 & d1 & y & -> & -> & G1 & G2 & G3).
      assert (L1 : List.length (w_new W1) = List.length (w_new V1)) by (rewrite G2, G3, !app_length, L; reflexivity).
      specialize (IH W1 V1 d1 G1 L1). destruct (load C W1 d1 l) as [[W' d']|], (load C V1 d1 l) as [[V' d'']|]; auto.
      destruct IH as [E (z & Z1 & Z2)]. split; [exact E|]. exists (y ++ z). rewrite Z1, Z2, G2, G3, !app_assoc. auto.
  Qed.
  (** what is loaded holds only defaults and new objects *)
  Lemma load_refs : forall l W d W' d' n, load C W d l = Some (W', d') -> n <= List.length (w_new W) ->
    (forall k m, dget d k = Some (HRef (LNew m)) -> n <= m) -> forall k m, dget d' k = Some (HRef (LNew m)) -> n <= m.
  Proof.
    induction l as [|[k v] l IH]; intros W d W' d' n H L G; cbn [load] in H.
    - injection H as <- <-. exact G.
    - destruct (fd_entry the_lib (cd_param C) k v) as [[x|]|e] eqn:E; [|eapply IH; eassumption|discriminate].
      destruct (store W d k x) as [W1 d1] eqn:S1. apply store_facts in S1. destruct S1 as (A1 & A2 & [xs A3] & y & -> & A4).
      eapply IH; [exact H|rewrite A3, app_length; lia|]. intros k0 m. rewrite dget_dset. destruct (ueqb k0 k); [|apply G].
      intro Q. injection Q as ->. destruct A4 as [_ [[? ?]|[Q _]]]; [discriminate|]. injection Q as ->. exact L.
  Qed.

  Definition held (W : world) (i : nat) (k : ustr) : option hval :=
    match nth_error (w_inst W) i with Some d => dget d k | None => None end.
  Definition of_class (x : option hval) : Prop := exists k, x = Some (HRef (LDef k)).

  Lemma only_refl : forall W i k, only C W W i k.
  Proof. intros. repeat split; auto. Qed.

  Theorem own_only : forall W i k l, winv W -> ~ of_class (held W i k) -> only C W (step C W (Change i k l)) i k.
  Proof.
    intros W i k l I H. cbn [step]. unfold held in H. destruct (nth_error (w_inst W) i) as [d|] eqn:Hi; [|apply only_refl].
    destruct (dget d k) as [[v|[q|n]]|] eqn:Hk; try apply only_refl; [exfalso; apply H; exists q; reflexivity|].
    destruct I as [I1 I2]. refine (conj _ (conj eq_refl _)).
    - intros j k' N1. unfold look. cbn [write w_inst]. destruct (nth_error (w_inst W) j) as [e|] eqn:Hj; [|reflexivity].
      destruct (dget e k') as [[v|[q|m]]|] eqn:He; try reflexivity. cbn [content_of write w_new].
      assert (n <> m). { intro Q. subst m. destruct (I2 _ _ _ _ _ _ _ Hi Hj Hk He) as [-> ->]. destruct N1; congruence. }
      rewrite replace_other by assumption. reflexivity.
    - intros sd kw k'. cbn [step]. set (V := write W (LNew n) l).
      pose proof (load_same kw V W (if sd then class_default C else []) eq_refl (replace_length _ _ _ _)) as L.
      assert (R : forall W' d', load C W (if sd then class_default C else []) kw = Some (W', d') ->
                    forall k m, dget d' k = Some (HRef (LNew m)) -> List.length (w_new W) <= m).
      { intros W' d' E. eapply load_refs; [exact E|reflexivity|]. intros k0 m. destruct sd; [|discriminate]. intro Q. apply dget_default_ref in Q. destruct Q. discriminate. }
      destruct (load C V _ kw) as [[V' d1]|] eqn:EV, (load C W _ kw) as [[W' d2]|] eqn:EW; try contradiction.
      + destruct L as [<- (x & X1 & X2)]. apply load_facts in EV. destruct EV as (V1 & V2 & _). specialize (R _ _ eq_refl).
        apply load_facts in EW. destruct EW as (W1 & W2 & _). unfold look. cbn [add_inst w_inst w_new w_def]. rewrite V1, W1.
        change (w_inst V) with (w_inst W). rewrite nth_last. destruct (dget d1 k') as [[v|[q|m]]|] eqn:Q; try reflexivity.
        * cbn [content_of add_inst w_def]. rewrite V2, W2. reflexivity.
        * cbn [content_of add_inst w_new]. apply R in Q. rewrite X1, X2. rewrite !nth_error_app2; [|exact Q|unfold V; cbn [write w_new]; rewrite replace_length; exact Q].
          unfold V. cbn [write w_new]. rewrite replace_length. reflexivity.
      + unfold look. change (w_inst V) with (w_inst W).
        replace (nth_error (w_inst W) (List.length (w_inst W))) with (@None (dict hval)); [reflexivity|]. symmetry. apply nth_error_None. lia.
  Qed.

  Lemma held_default : forall W i k, winv W -> of_class (held W i k) -> listdef k.
  Proof.
    intros W i k [I1 _] [q H]. unfold held in H. destruct (nth_error (w_inst W) i) as [d|] eqn:Hi; [|discriminate]. apply (I1 _ _ _ _ Hi H).
  Qed.

  Theorem scalar_default_only : forall h i k l, ~ listdef k ->
    only C (run C (start C) h) (step C (run C (start C) h) (Change i k l)) i k.
  Proof.
    intros h i k l H. assert (I : winv (run C (start C) h)) by (apply run_inv, start_inv).
    apply own_only; [exact I|]. intro Q. apply H. eapply held_default; eassumption.
  Qed.

  (** ** once an instance has a value of its own it keeps having one *)
  Definition own (W : world) (i : nat) (k : ustr) : Prop := exists x, held W i k = Some x /\ ~ of_class (Some x).

  Lemma fresh_own : forall n n' x, fresh n n' x -> ~ of_class (Some x).
  Proof. intros n n' x [_ [[v ->]|[-> _]]] [q Q]; discriminate. Qed.

  Lemma own_step : forall W o i k, own W i k -> o <> Del i k -> own (step C W o) i k.
  Proof.
    intros W o i k (x & Hx & O) D. unfold held in Hx. destruct (nth_error (w_inst W) i) as [d0|] eqn:Hi; [|discriminate].
    unfold own, held. destruct o as [sd kw|j q v|j q|j|j q l]; cbn [step].
    - destruct (load C W (if sd then class_default C else []) kw) as [[W' d]|] eqn:E; [|rewrite Hi; eauto]. apply load_facts in E.
      destruct E as (E1 & _). cbn [add_inst w_inst]. rewrite E1, nth_old by (eapply nth_some; eassumption). rewrite Hi. eauto.
    - destruct (nth_error (w_inst W) j) as [d|] eqn:Hj; [|rewrite Hi; eauto].
      assert (G : forall y, exists x0, match nth_error (w_inst (let (W', d') := store W d q y in put_inst W' j d')) i with Some d => dget d k | None => None end = Some x0 /\ ~ of_class (Some x0)).
      { intro y. destruct (store W d q y) as [W' d'] eqn:S1. apply store_facts in S1. destruct S1 as (A1 & A2 & _ & z & -> & A4).
        cbn [put_inst w_inst]. rewrite A1. destruct (Nat.eq_dec j i) as [->|NE].
        - rewrite (replace_same _ _ _ _ _ Hj). rewrite dget_dset. assert (d = d0) by congruence. subst.
          destruct (ueqb k q); [exists z; split; [reflexivity|eapply fresh_own; exact A4]|eauto].
        - rewrite replace_other by exact NE. rewrite Hi. eauto. }
      destruct (match dget (cd_param C) q with Some s => _ | None => _ end) as [[y|]|[]]; auto; rewrite Hi; eauto.
    - destruct (nth_error (w_inst W) j) as [d|] eqn:Hj; [|rewrite Hi; eauto]. cbn [put_inst w_inst]. destruct (Nat.eq_dec j i) as [->|NE].
      + rewrite (replace_same _ _ _ _ _ Hj). rewrite dget_ddel. assert (d = d0) by congruence. subst.
        destruct (ueqb k q) eqn:E; [apply ueqb_eq in E; congruence|eauto].
      + rewrite replace_other by exact NE. rewrite Hi. eauto.
    - destruct (nth_error (w_inst W) j) as [d|] eqn:Hj; [|rewrite Hi; eauto]. cbn [put_inst w_inst]. destruct (Nat.eq_dec j i) as [->|NE].
      + rewrite (replace_same _ _ _ _ _ Hj). rewrite dget_defaults. assert (d = d0) by congruence. subst. rewrite Hx. eauto.
      + rewrite replace_other by exact NE. rewrite Hi. eauto.
    - destruct (nth_error (w_inst W) j) as [d|] eqn:Hj; [|rewrite Hi; eauto]. destruct (dget d q) as [[v|[r|n]]|]; cbn [write w_inst]; rewrite Hi; eauto.
  Qed.
  Lemma own_run : forall h W i k, own W i k -> ~ In (Del i k) h -> own (run C W h) i k.
  Proof.
    induction h as [|o h IH]; intros W i k O H; [exact O|]. apply (IH (step C W o)); [|intro; apply H; right; assumption].
    apply own_step; [exact O|]. intros ->. apply H. left. reflexivity.
  Qed.

  Lemma gives_own : forall W o i k, winv W -> i < List.length (w_inst (step C W o)) -> gives C W o i k -> own (step C W o) i k.
  Proof.
    intros W o i k I L G. destruct o as [sd kw|j q v|j q|j|j q l]; cbn [gives] in G; try contradiction.
    - destruct G as (-> & _ & v & x & G1 & G2). revert L. cbn [step].
      destruct (load C W (if sd then class_default C else []) kw) as [[W' d]|] eqn:E; [|lia]. intros _. apply load_facts in E.
      destruct E as (E1 & _ & _ & _ & _ & E6 & E7). destruct (E7 _ _ _ G1 G2) as [y Hy]. exists y. unfold held. cbn [add_inst w_inst].
      rewrite E1, nth_last. split; [exact Hy|]. intros [r R]. injection R as ->. apply E6 in Hy. destruct Hy as [_ Hy]. exact (Hy _ _ G1 G2).
    - destruct G as (-> & -> & x & G). revert L. cbn [step]. rewrite G.
      destruct (nth_error (w_inst W) i) as [d|] eqn:Hi; [|apply nth_error_None in Hi; lia]. intros _.
      destruct (store W d k x) as [W' d'] eqn:S1. apply store_facts in S1. destruct S1 as (A1 & A2 & _ & z & -> & A4).
      exists z. unfold held. cbn [put_inst w_inst]. rewrite A1, (replace_same _ _ _ _ _ Hi), dget_dset_same. split; [reflexivity|eapply fresh_own; exact A4].
  Qed.

  Theorem given_only : forall h1 o h2 i k l,
    let W := run C (start C) h1 in
    gives C W o i k -> i < List.length (w_inst (step C W o)) -> ~ In (Del i k) h2 ->
    let V := run C (step C W o) h2 in only C V (step C V (Change i k l)) i k.
  Proof.
    intros h1 o h2 i k l W G L D V. assert (I : winv W) by (apply run_inv, start_inv).
    apply own_only; [apply run_inv, step_inv; exact I|].
    destruct (own_run h2 _ i k (gives_own W o i k I L G) D) as (x & Hx & Ox). fold V in Hx. rewrite Hx. exact Ox.
  Qed.

  (** ** the shared default *)
  Theorem shared_default : forall k l0 l, dget (cd_default C) k = Some (VList l0) ->
    let W := run C (start C) [New true []; New true []] in
    look W 0 k = Some (VList l0) /\ look W 1 k = Some (VList l0) /\
    let V := step C W (Change 0 k l) in
    look V 1 k = Some (VList l) /\ look (step C V (New true [])) 2 k = Some (VList l).
  Proof.
    intros k l0 l H W.
    assert (E : dget (class_default C) k = Some (HRef (LDef k))) by (rewrite dget_default, H; reflexivity).
    assert (D : dget (w_def (start C)) k = Some l0).
    { unfold start. cbn [w_def]. revert H. induction (cd_default C) as [|[k0 v0] d IH]; [discriminate|]. cbn [dget map fst snd List.concat].
      destruct (ueqb k k0) eqn:Q.
      - intro R. injection R as ->. cbn [app dget]. rewrite Q. reflexivity.
      - intro R. destruct v0; cbn [app dget]; try rewrite Q; apply IH; exact R. }
    assert (EW : W = {| w_def := w_def (start C); w_new := []; w_inst := [class_default C; class_default C] |}) by reflexivity.
    rewrite EW. clear EW W. unfold look. cbn [w_inst nth_error step]. rewrite E. cbn [content_of w_def write w_inst nth_error load add_inst app].
    rewrite E, D. cbn [content_of w_def option_map add_inst write]. rewrite dget_dset_same. auto.
  Qed.

  (** ** the instances behave as the messages of Model/Message.v *)
  Definition shows (W : world) (d : dict hval) (e : dict value) : Prop :=
    (forall k, match dget d k with Some x => content_of W x | None => None end = dget e k) /\
    (forall k m, dget d k = Some (HRef (LNew m)) -> m < List.length (w_new W)).
  Lemma store_shows : forall W d e k v W' d', shows W d e -> store W d k v = (W', d') -> shows W' d' (dset e k v).
  Proof.
    intros W d e k v W' d' [S1 S2] H. unfold store in H.
    assert (P : (W, dset d k (HVal v)) = (W', d') -> shows W' d' (dset e k v)).
    { intro Q. injection Q as <- <-. split; intro k0; rewrite !dget_dset; destruct (ueqb k0 k) eqn:E.
      - reflexivity.
      - apply S1.
      - discriminate.
      - apply S2. }
    destruct v; try exact (P H). clear P. injection H as <- <-. split; intro k0; rewrite !dget_dset; destruct (ueqb k0 k) eqn:E.
    - cbn [content_of w_new]. rewrite nth_last. reflexivity.
    - rewrite <- S1. destruct (dget d k0) as [[w|[q|m]]|] eqn:D; try reflexivity. cbn [content_of w_new].
      rewrite nth_old by exact (S2 _ _ D). reflexivity.
    - cbn [w_new]. intros m Q. injection Q as <-. rewrite app_length. cbn. lia.
    - cbn [w_new]. intros m Q. apply S2 in Q. rewrite app_length. lia.
  Qed.
  Lemma load_shows : forall l W d e, shows W d e ->
    match load C W d l, from_items the_lib (cd_param C) e l with
    | Some (W', d'), (e', Ok _) => shows W' d' e'
    | None, (_, Err _) => True
    | _, _ => False
    end.
  Proof.
    induction l as [|[k v] l IH]; intros W d e S1; cbn [load from_items]; [exact S1|].
    destruct (fd_entry the_lib (cd_param C) k v) as [[x|]|y]; [|apply IH; exact S1|exact I].
    destruct (store W d k x) as [W1 d1] eqn:E. apply IH. eapply store_shows; eassumption.
  Qed.

  Theorem new_shows : forall kw, dhas kw (u "self") = false -> dhas kw (u "set_defaults") = false -> forall k,
    look (step C (start C) (New true kw)) 0 k = match construct C kw with Ok d => dget d k | Err _ => None end.
  Proof.
    intros kw H1 H2 k. unfold construct, construct_gen. rewrite H1. apply dhas_false in H2. rewrite H2.
    rewrite ddel_id by (intro Q; apply dhas_In in Q; apply dhas_false in H2; congruence). cbn [step].
    assert (S0 : shows (start C) (class_default C) (cd_default C)).
    { split; intro k0; [|intros m Q; apply dget_default_ref in Q; destruct Q; discriminate].
      rewrite dget_default. destruct (dget (cd_default C) k0) as [[]|] eqn:E; try reflexivity. cbn [content_of].
      unfold start. cbn [w_def]. revert E. induction (cd_default C) as [|[k1 v1] d IH]; [discriminate|]. cbn [dget map fst snd List.concat].
      destruct (ueqb k0 k1) eqn:Q.
      - intro R. injection R as ->. cbn [app dget]. rewrite Q. reflexivity.
      - intro R. destruct v1; cbn [app dget]; try rewrite Q; apply IH; exact R. }
    pose proof (load_shows kw _ _ _ S0) as L. destruct (load C (start C) (class_default C) kw) as [[W d]|] eqn:E;
      destruct (from_items the_lib (cd_param C) (cd_default C) kw) as [e [[]|y]]; cbn [ret_msg]; try contradiction.
    - apply load_facts in E. destruct E as [E _]. unfold look. cbn [add_inst w_inst]. rewrite E. cbn [start w_inst app nth_error].
      destruct L as [L _]. rewrite <- L. destruct (dget d k) as [[w|[q|m]]|]; reflexivity.
    - reflexivity.
  Qed.
  Theorem set_shows : forall W i d e k v, nth_error (w_inst W) i = Some d -> shows W d e ->
    forall k', look (step C W (Set_ i k v)) i k' = dget (fst (setitem C e k v)) k'.
  Proof.
    intros W i d e k v Hi S1 k'. cbn [step]. rewrite Hi.
    assert (G : forall x, look (let (W', d') := store W d k x in put_inst W' i d') i k' = dget (dset e k x) k').
    { intro x. destruct (store W d k x) as [W' d'] eqn:E. destruct (store_shows _ _ _ _ _ _ _ S1 E) as [L _]. apply store_facts in E. destruct E as [E _].
      unfold look. cbn [put_inst w_inst]. rewrite E, (replace_same _ _ _ _ _ Hi). rewrite <- L. destruct (dget d' k') as [[w|[q|m]]|]; reflexivity. }
    assert (G0 : look W i k' = dget e k').
    { unfold look. rewrite Hi. destruct S1 as [S1 _]. rewrite <- S1. reflexivity. }
    unfold setitem. destruct (dget (cd_param C) k) as [s|]; [|apply G].
    destruct (add_val the_lib s v) as [[x|]|[]]; cbn [fst]; auto.
  Qed.
End C.
