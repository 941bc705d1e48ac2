(** Configuration helpers. *)
From Coq Require Import List NArith ZArith Bool String Lia Arith.
From Verif Require Import Base.Ustr Base.UstrLemmas Base.Percent Model.Value Model.Config Spec.StorageSpec Proofs.ValueLemmas.
Import ListNotations.
Open Scope list_scope.
Open Scope N_scope.

(** ** modsplit *)
Lemma split_two : forall c m r, ~ In c m -> ~ In c r -> split_on c (m ++ c :: r) = [m; r].
Proof.
  intros c m r Hm Hr. rewrite split_on_app by (apply not_true_is_false; rewrite has_char_In; exact Hm).
  f_equal. apply split_on_none. apply not_true_is_false. rewrite has_char_In. exact Hr.
Qed.
Lemma modsplit_colon : forall m c, ~ In 58 m -> ~ In 58 c -> modsplit (m ++ u ":" ++ c) = Ok (m, c).
Proof.
  intros m c Hm Hc. unfold modsplit. change (u ":" ++ c) with (58 :: c).
  replace (has_char 58 (m ++ 58 :: c)) with true by (symmetry; apply has_char_In, in_or_app; right; left; reflexivity).
  rewrite (split_two 58 m c Hm Hc). reflexivity.
Qed.
Lemma split_length : forall c s, List.length (split_on c s) = Datatypes.S (count_occ N.eq_dec s c).
Proof.
  intros c s. induction s as [|x s IH]; [reflexivity|]. cbn [split_on count_occ]. destruct (N.eq_dec x c) as [->|H].
  - rewrite N.eqb_refl. cbn [List.length]. rewrite IH. reflexivity.
  - replace (x =? c) with false by (symmetry; apply N.eqb_neq; exact H).
    destruct (split_on c s) eqn:E; [exfalso; exact (split_on_nonempty c s E)|]. cbn [List.length] in *. exact IH.
Qed.
Lemma modsplit_colons : forall name, (2 <= count_occ N.eq_dec name 58%N)%nat -> modsplit name = Err EValueError.
Proof.
  intros name H. unfold modsplit.
  replace (has_char 58 name) with true by (symmetry; apply has_char_In, (count_occ_In N.eq_dec); lia).
  pose proof (split_length 58 name) as L. destruct (split_on 58 name) as [|a [|b [|d l]]]; cbn in L; try lia; reflexivity.
Qed.
Lemma modsplit_dot : forall m c, ~ In 58 m -> ~ In 58 c -> ~ In 46 c -> modsplit (m ++ u "." ++ c) = Ok (m, c).
Proof.
  intros m c Hm Hc Hd. unfold modsplit. change (u "." ++ c) with (46 :: c).
  replace (has_char 58 (m ++ 46 :: c)) with false.
  2:{ symmetry. apply not_true_is_false. rewrite has_char_In. intro H. apply in_app_or in H.
      destruct H as [H|[H|H]]; [contradiction|discriminate|contradiction]. }
  assert (E : split_on 46 (m ++ 46 :: c) = split_on 46 m ++ [c]).
  { clear Hm Hc. induction m as [|x m IH].
    - cbn [app]. change (46 :: c) with ([] ++ 46 :: c). rewrite (split_two 46 [] c); auto.
    - cbn [app split_on]. rewrite IH. destruct (x =? 46); [reflexivity|].
      destruct (split_on 46 m) eqn:E; [exfalso; exact (split_on_nonempty 46 m E)|]. reflexivity. }
  rewrite E, app_length. cbn [List.length]. destruct (split_on 46 m) as [|p l] eqn:Em; [exfalso; exact (split_on_nonempty 46 m Em)|].
  replace (Nat.ltb (List.length (p :: l) + 1) 2) with false by (symmetry; apply Nat.ltb_ge; cbn [List.length]; lia).
  rewrite removelast_last, last_last, <- Em. change (u ".") with [46]. rewrite split_join. reflexivity.
Qed.
Lemma modsplit_none : forall name, ~ In 58 name -> ~ In 46 name -> modsplit name = Err EValueError.
Proof.
  intros name H1 H2. unfold modsplit.
  replace (has_char 58 name) with false by (symmetry; apply not_true_is_false; rewrite has_char_In; exact H1).
  rewrite split_on_none by (apply not_true_is_false; rewrite has_char_In; exact H2). reflexivity.
Qed.
(** every text is of one of these forms *)
Lemma last_dot : forall s, In 46 s -> exists m c, s = m ++ u "." ++ c /\ ~ In 46 c.
Proof.
  intros s H. induction s as [|x s IH]; [destruct H|]. destruct (in_dec N.eq_dec 46 s) as [Hs|Hs].
  - destruct (IH Hs) as (m & c & -> & Hc). exists (x :: m), c. auto.
  - destruct H as [->|H]; [|contradiction]. exists [], s. auto.
Qed.
Theorem modsplit_spec : forall name,
  (forall m c, name = m ++ u ":" ++ c -> ~ In 58 m -> ~ In 58 c -> modsplit name = Ok (m, c)) /\
  ((2 <= count_occ N.eq_dec name 58%N)%nat -> modsplit name = Err EValueError) /\
  (~ In 58 name -> In 46 name -> exists m c, modsplit name = Ok (m, c) /\ name = m ++ u "." ++ c /\ ~ In 46 c) /\
  (~ In 58 name -> ~ In 46 name -> modsplit name = Err EValueError).
Proof.
  intro name. split; [intros m c ->; apply modsplit_colon|]. split; [apply modsplit_colons|]. split; [|apply modsplit_none].
  intros H1 H2. destruct (last_dot name H2) as (m & c & -> & Hc). exists m, c. split; [|auto].
  apply modsplit_dot; auto; intro; apply H1; apply in_or_app; [left|right; right]; assumption.
Qed.

(** ** get_storage_conf *)
Theorem storage_conf : forall d typ,
  (truthy (entry d typ) = true -> get_storage_conf (VDict d) typ = Ok (entry d typ)) /\
  (d <> [] -> truthy (entry d typ) = false -> typ <> u "default" ->
     get_storage_conf (VDict d) typ = Ok (entry d (u "default"))) /\
  (d <> [] -> truthy (entry d (u "default")) = false -> get_storage_conf (VDict d) (u "default") = Err EConfigurationError) /\
  get_storage_conf VNone typ = Ok VNone /\ get_storage_conf (VDict []) typ = Ok VNone.
Proof.
  intros d typ. unfold get_storage_conf. change (fun k => match dget d k with Some v => v | None => VNone end) with (entry d).
  assert (T : d <> [] -> truthy (VDict d) = true) by (destruct d; [congruence|reflexivity]).
  split; [|split; [|split]].
  - intro H. assert (Hd : d <> []) by (intros ->; discriminate). rewrite (T Hd). unfold entry in *. rewrite H. reflexivity.
  - intros Hd H Ht. rewrite (T Hd). unfold entry in *. rewrite H.
    replace (ueqb typ (u "default")) with false by (symmetry; apply not_true_is_false; rewrite ueqb_eq; exact Ht). reflexivity.
  - intros Hd H. rewrite (T Hd). unfold entry in *. rewrite H, ueqb_refl. reflexivity.
  - split; reflexivity.
Qed.
(** the storage that is chosen *)
Theorem storage_chosen : forall d key,
  let own := entry d key in let e := if truthy own then own else entry d (u "default") in
  (forall c, d <> [] -> (truthy own = true \/ key <> u "default") -> e = VDict c -> c <> [] ->
     init_storage (VDict d) key = if truthy (entry c (u "handler")) then Ok (Handler (entry c (u "handler")) (ddel c (u "handler")))
                                  else Err EConfigurationError) /\
  (d <> [] -> key <> u "default" -> truthy own = false -> truthy (entry d (u "default")) = false ->
     init_storage (VDict d) key = Ok (InMemory key)) /\
  init_storage VNone key = Ok (InMemory key).
Proof.
  intros d key own e. destruct (storage_conf d key) as (A & B & _).
  assert (T : d <> [] -> truthy (VDict d) = true) by (destruct d; [congruence|reflexivity]).
  split; [|split; [|reflexivity]].
  - intros c Hd Hk He Hc. unfold init_storage. rewrite (T Hd).
    assert (G : get_storage_conf (VDict d) key = Ok (VDict c)).
    { unfold e, own in *. destruct (truthy (entry d key)) eqn:E; [rewrite (A eq_refl); congruence|].
      destruct Hk as [Hk|Hk]; [discriminate|]. rewrite (B Hd eq_refl Hk). congruence. }
    rewrite G. cbn [bind]. replace (truthy (VDict c)) with true by (destruct c; [congruence|reflexivity]). reflexivity.
  - intros Hd Hk E1 E2. unfold init_storage. rewrite (T Hd). unfold own in E1. rewrite (B Hd E1 Hk). cbn [bind]. rewrite E2. reflexivity.
Qed.

(** ** proper_path *)
Lemma ends_slash : forall p, endswith (u "/") (if endswith (u "/") p then p else p ++ u "/") = true.
Proof. intro p. destruct (endswith (u "/") p) eqn:E; [exact E|]. apply endswith_iff. eauto. Qed.
Lemma proper_ends : forall p, exists r, proper_path p = r ++ u "/".
Proof. intro p. apply endswith_iff. unfold proper_path. apply ends_slash. Qed.
Lemma drop_dots_form : forall p, exists n, p = repeat 46 n ++ drop_dots p /\ match drop_dots p with c :: _ => c <> 46 | [] => True end.
Proof.
  induction p as [|c p IH]; [exists O; split; [reflexivity|exact I]|]. destruct IH as (n & E & H). cbn [drop_dots]. destruct (N.eqb_spec c 46) as [->|Hc].
  - exists (Datatypes.S n). cbn [repeat app]. rewrite <- E. auto.
  - exists O. auto.
Qed.
Lemma starts_more : forall p s, startswith (u "./") p = true -> startswith (u "./") (if endswith (u "/") p then p else p ++ s) = true.
Proof.
  intros p s H. destruct (endswith _ p); [exact H|]. apply startswith_iff in H. destruct H as [r ->]. apply startswith_iff.
  exists (r ++ s). rewrite app_assoc. reflexivity.
Qed.
Lemma starts_slash : forall p, startswith (u "/") p = true -> exists r, p = 47 :: r.
Proof. intros p H. apply startswith_iff in H. destruct H as [r ->]. exists r. reflexivity. Qed.
Theorem proper_starts : forall p, ~ dotted p -> exists r, proper_path p = u "./" ++ r.
Proof.
  intros p H. apply startswith_iff. unfold proper_path. destruct (startswith (u "./") p) eqn:E1; [apply starts_more; exact E1|].
  destruct (startswith (u "/") p) eqn:E2.
  - apply starts_more. destruct (starts_slash p E2) as [r ->]. reflexivity.
  - destruct (startswith (u ".") p) eqn:E3; [|apply starts_more; apply startswith_iff; exists p; reflexivity].
    destruct (startswith (u "/") (drop_dots p)) eqn:E4.
    + apply starts_more. destruct (starts_slash _ E4) as [r ->]. reflexivity.
    + exfalso. apply H. destruct (drop_dots_form p) as (n & E & Hd). destruct n as [|n].
      * cbn [repeat app] in E. apply startswith_iff in E3. destruct E3 as [r Er]. rewrite <- E, Er in Hd. destruct (Hd eq_refl).
      * exists n, (drop_dots p). split; [exact E|]. destruct (drop_dots p) as [|c r]; [exact I|]. split; [|exact Hd].
        intros ->. discriminate.
Qed.
Lemma proper_fix : forall p, startswith (u "./") p = true -> endswith (u "/") p = true -> proper_path p = p.
Proof. intros p H1 H2. unfold proper_path. rewrite H1, H2. reflexivity. Qed.
Theorem proper_idem : forall p, ~ dotted p -> proper_path (proper_path p) = proper_path p.
Proof.
  intros p H. apply proper_fix; [apply startswith_iff, proper_starts; exact H|apply endswith_iff, proper_ends].
Qed.
(** and what becomes of them: the dots are gone *)
Theorem proper_dotted : forall p, dotted p -> ~ exists r, proper_path p = u "./" ++ r.
Proof.
  intros p (n & r & -> & Hr) [x Hx].
  assert (Hd : drop_dots (repeat 46 (Datatypes.S n) ++ r) = r).
  { clear Hx x. induction (Datatypes.S n) as [|k IH]; cbn [repeat app drop_dots].
    - destruct r as [|c r]; [reflexivity|]. cbn [drop_dots]. replace (c =? 46) with false by (symmetry; apply N.eqb_neq; tauto). reflexivity.
    - rewrite N.eqb_refl. exact IH. }
  assert (Hs : startswith (u "./") (repeat 46 (Datatypes.S n) ++ r) = false).
  { apply not_true_is_false. intro E. apply startswith_iff in E. destruct E as [y E]. destruct n as [|n]; cbn in E.
    - destruct r as [|c r]; [discriminate|]. injection E as Ec _. tauto.
    - discriminate. }
  unfold proper_path in Hx. rewrite Hs, Hd in Hx. change (startswith (u "/") (repeat 46 (Datatypes.S n) ++ r)) with false in Hx.
  replace (startswith (u ".") (repeat 46 (Datatypes.S n) ++ r)) with true in Hx
    by (symmetry; apply startswith_iff; exists (repeat 46 n ++ r); reflexivity).
  replace (startswith (u "/") r) with false in Hx.
  2:{ symmetry. apply not_true_is_false. intro E. destruct (starts_slash r E) as [y ->]. tauto. }
  destruct r as [|c r]; [discriminate|]. destruct Hr as [_ Hc]. destruct (endswith _ _); cbn in Hx; injection Hx as Hx _; congruence.
Qed.
Theorem proper_path_spec : forall p,
  (exists r, proper_path p = r ++ u "/") /\
  ((exists r, proper_path p = u "./" ++ r) <-> ~ dotted p) /\
  (~ dotted p -> proper_path (proper_path p) = proper_path p).
Proof.
  intro p. split; [apply proper_ends|]. split; [|apply proper_idem]. split; [|apply proper_starts].
  intros H Hd. exact (proper_dotted p Hd H).
Qed.
(** ** a configuration that is no dictionary *)
Lemma storage_no_dictionary : forall v d key,
  (forall c, v <> VDict c) -> (forall c m, v <> VMsg c m) -> truthy v = true ->
  get_storage_conf v key = Err EAttributeError /\ init_storage v key = Err EAttributeError /\
  (entry d key = v \/ (truthy (entry d key) = false /\ key <> u "default" /\ entry d (u "default") = v) -> init_storage (VDict d) key = Err EAttributeError).
Proof.
  intros v d key H1 H2 T.
  assert (G : get_storage_conf v key = Err EAttributeError).
  { unfold get_storage_conf. rewrite T. destruct v; try reflexivity. exfalso. eapply H1; reflexivity. }
  split; [exact G|]. split; [unfold init_storage; rewrite T, G; reflexivity|]. intro H. destruct (storage_conf d key) as (A & B & _).
  assert (Hd : d <> []) by (intros ->; destruct H as [H|(_ & _ & H)]; subst v; discriminate).
  assert (E : get_storage_conf (VDict d) key = Ok v) by (destruct H as [H|(E1 & E2 & E3)]; [rewrite A by (rewrite H; exact T); congruence|rewrite B by assumption; congruence]).
  unfold init_storage. replace (truthy (VDict d)) with true by (destruct d; [congruence|reflexivity]). rewrite E. cbn [bind]. rewrite T.
  unfold storage_factory. destruct v; try reflexivity. exfalso. eapply H1; reflexivity.
Qed.
