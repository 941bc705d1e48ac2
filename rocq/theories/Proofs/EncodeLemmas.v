(** to_dict, to_urlencoded, from_urlencoded, request, equality and histories. *)
From Coq Require Import List NArith ZArith QArith Bool String Lia.
From Verif Require Import Base.Ustr Base.UstrLemmas Base.Utf8 Base.Percent Base.PercentLemmas Model.Cls Model.Value
  Model.Pspec Model.Tables Model.Float Model.Json Model.Message Model.History Spec.MessageSpec Proofs.ValueLemmas Proofs.MessageLemmas.
Import ListNotations.
Open Scope list_scope.
Open Scope N_scope.

Lemma to_dict_v_msg : forall c d,
  to_dict_v (VMsg c d) = match to_dict (cdef c) d with Ok r => Ok (VDict r) | Err e => Err e end.
Proof.
  intros c d. unfold to_dict. cbn [to_dict_v].
  match goal with |- match ?g d with _ => _ end = _ => set (go := g) end.
  assert (H : forall d, go d = mapM (fun kv => match td_entry to_dict_v (ser_of (cd_param (cdef c)) (fst kv)) (snd kv) with
                  | Ok y => Ok (fst kv, y) | Err e => Err e end) d).
  { clear d. induction d as [|[k x] d IH]; [reflexivity|]. cbn [mapM fst snd]. unfold go at 1.
    destruct (td_entry to_dict_v (ser_of (cd_param (cdef c)) k) x); [|reflexivity].
    fold go. rewrite IH. reflexivity. }
  rewrite H. reflexivity.
Qed.

(** ** C11: serializing never raises MissingRequiredAttribute *)
Definition quiet {A} (r : res A) : Prop := r <> Err EMissingRequiredAttribute.

Lemma quiet_ok : forall A (x : A), quiet (Ok x).
Proof. intros A x H. discriminate. Qed.
Lemma quiet_err : forall A e, e <> EMissingRequiredAttribute -> quiet (A := A) (Err e).
Proof. intros A e H H1. congruence. Qed.
Lemma quiet_bind : forall A B (r : res A) (f : A -> res B), quiet r -> (forall x, quiet (f x)) -> quiet (bind r f).
Proof. intros A B [x|e] f H H1; simpl; [apply H1|]. intro Hc. apply H. congruence. Qed.
Lemma quiet_mapM : forall A B (f : A -> res B) l, (forall x, In x l -> quiet (f x)) -> quiet (mapM f l).
Proof.
  intros A B f l H Hc. apply mapM_err in Hc. destruct Hc as [x [Hin Hx]]. exact (H x Hin Hx).
Qed.
#[local] Hint Resolve quiet_ok : core.
#[local] Hint Extern 1 (quiet (Err _)) => (apply quiet_err; discriminate) : core.

Lemma jerr_cases : forall v e, jerr v = Some e -> e = OutOfModel \/ e = ETypeError.
Proof.
  induction v using value_ind'; intros e He; try discriminate; simpl in He.
  - destruct (float_repr q); [discriminate|]. injection He as <-. auto.
  - induction l as [|x l IH]; [discriminate|]. inversion H; subst. destruct (jerr x) eqn:E; [|auto].
    injection He as <-. eauto.
  - induction d as [|[k x] d IH]; [discriminate|]. inversion H; subst. destruct (jerr x) eqn:E; [|auto].
    injection He as <-. eauto.
  - injection He as <-. auto.
Qed.

Lemma quiet_dumps : forall v, quiet (json_dumps v).
Proof.
  intro v. unfold json_dumps. destruct (jerr v) eqn:E; [|auto]. apply jerr_cases in E.
  destruct E as [-> | ->]; auto.
Qed.
Lemma quiet_str : forall v, quiet (py_str v).
Proof. intros [|[]| |q| | | | ]; cbn [py_str]; try destruct (Float.float_repr q); simpl; auto. Qed.
Lemma quiet_join : forall v, quiet (sp_join v).
Proof. intro v. unfold sp_join. destruct v; simpl; auto; destruct (strs_of _); auto. Qed.
Lemma quiet_int : forall s, quiet (py_int_str s).
Proof.
  intro s. unfold py_int_str. destruct (forallb is_ascii s); [|auto]. destruct (strip s) as [|c r]; [auto|].
  destruct (c =? 45); [destruct (digits_us _ _ _); auto|]. destruct (c =? 43); destruct (digits_us _ _ _); auto.
Qed.
#[local] Hint Resolve quiet_dumps quiet_str quiet_join quiet_int : core.
Lemma quiet_to_iso : forall b z, quiet (to_iso b z).
Proof.
  intros b z. unfold to_iso. destruct (z =? 0)%Z eqn:Ez; [auto|]. unfold to_iso_at. rewrite Ez. unfold gmtime. destruct (int64 z); [|simpl; auto].
  cbv zeta. generalize (gmtime_tm z). intro t. destruct (int32 _); [|simpl; auto]. cbn [bind]. destruct (_ || _); auto.
Qed.
Lemma quiet_stamp : forall b v, quiet (stamp_ser b v).
Proof.
  intros b v. unfold stamp_ser. destruct v; auto; (apply quiet_bind; [cbn [py_int]; auto|]); intro;
  (apply quiet_bind; [apply quiet_to_iso|auto]).
Qed.
#[local] Hint Resolve quiet_stamp : core.

Definition elems_ok (f : value -> Prop) (v : value) : Prop :=
  f v /\ match v with VList l => Forall f l | _ => True end.

Lemma quiet_match : forall A B (r : res A) (g : A -> B), quiet r ->
  quiet (match r with Ok x => Ok (g x) | Err e => Err e end).
Proof. intros A B [x|e] g H; [auto|]. intro Hc. apply H. congruence. Qed.

Lemma quiet_msg_ser : forall f v, quiet (f v) -> quiet (msg_ser_dict f v).
Proof. intros f v H. destruct v; simpl; auto. Qed.
Lemma quiet_link_ser : forall f v, quiet (f v) -> quiet (link_ser_dict f v).
Proof. intros f v H. destruct v; simpl; auto. destruct (subclass c _); auto. Qed.

Lemma quiet_ser_dict : forall f s v, elems_ok (fun v => quiet (f v)) v -> quiet (ser_dict f s v).
Proof.
  intros f s v [H1 H2]. destruct s; cbn [ser_dict].
  - destruct v; auto.
  - destruct v; auto; apply quiet_match; auto.
  - apply quiet_match; auto.
  - apply quiet_msg_ser. assumption.
  - destruct v; auto.
  - destruct v; auto. destruct l as [|x l]; [auto|]. inversion H2; subst. destruct x; auto.
  - destruct v; auto. apply quiet_match. apply quiet_mapM. intros x Hx. apply quiet_msg_ser.
    rewrite Forall_forall in H2. auto.
  - destruct v; auto.
    + apply quiet_match. apply quiet_mapM. intros x Hx. apply quiet_link_ser. rewrite Forall_forall in H2. auto.
    + destruct (subclass c _); auto.
  - apply quiet_stamp.
  - apply quiet_stamp.
Qed.

Lemma quiet_td_post : forall f v, elems_ok (fun v => quiet (f v)) v -> quiet (td_post f v).
Proof.
  intros f v [H1 H2]. destruct v; simpl; auto. destruct l as [|x l]; [auto|].
  destruct x; auto. apply quiet_match. apply quiet_mapM. rewrite Forall_forall in H2. auto.
Qed.

Lemma quiet_td_entry : forall f s v, elems_ok (fun v => quiet (f v)) v -> quiet (td_entry f s v).
Proof.
  intros f s v H. unfold td_entry. destruct s as [s|]; [|apply quiet_td_post; assumption].
  destruct s; try (apply quiet_ser_dict; assumption). destruct v; auto; apply quiet_td_post; assumption.
Qed.

Lemma quiet_to_dict : forall C d, Forall (fun kv => elems_ok (fun v => quiet (to_dict_v v)) (snd kv)) d ->
  quiet (to_dict C d).
Proof.
  intros C d H. unfold to_dict. apply quiet_mapM. intros kv Hin. rewrite Forall_forall in H.
  apply quiet_match. apply quiet_td_entry. auto.
Qed.

Lemma quiet_to_dict_v : forall v, elems_ok (fun v => quiet (to_dict_v v)) v.
Proof.
  induction v using value_ind'; (split; [|auto]); simpl; auto.
  - eapply Forall_impl; [|exact H]. intros x [Hx _]. assumption.
  - change (quiet (to_dict_v (VMsg c d))). rewrite to_dict_v_msg. apply quiet_match. apply quiet_to_dict. assumption.
Qed.

Lemma quiet_enc8 : forall s, quiet (enc8 s).
Proof. intro s. unfold enc8. destruct (scalars s); auto. Qed.
#[local] Hint Resolve quiet_enc8 : core.

Lemma quiet_ue_entry : forall P k v, quiet (ue_entry P k v).
Proof.
  intros P k v. unfold ue_entry.
  set (ser := match spec_of P k with Some s => p_ser s | None => None end).
  assert (Hd : forall v, quiet (match json_dumps v with Ok t => Ok t | Err e => if artefact e then Err e else py_str v end)).
  { intro x. unfold json_dumps. destruct (jerr x) as [e|] eqn:E; [|auto]. apply jerr_cases in E.
    destruct E as [-> | ->]; simpl; auto. }
  assert (Ho : quiet (ser_url_other ser v)).
  { assert (Hs : forall b x, quiet (match stamp_ser b x with
                                    | Ok (VStr t) => Ok t
                                    | Err e => if artefact e then Err e else py_str x
                                    | _ => py_str x
                                    end)).
    { intros b x. pose proof (quiet_stamp b x) as Hq. destruct (stamp_ser b x) as [y|e]; [destruct y; auto|].
      destruct (artefact e); [|auto]. intro Hc. apply Hq. congruence. }
    unfold ser_url_other. destruct ser as [[]|]; auto; destruct v; auto. }
  destruct v; try (apply quiet_bind; auto; fail).
  - destruct (match spec_of P k with Some s => p_null s | None => false end); auto.
  - destruct ser as [s|].
    + apply quiet_bind; [|auto]. destruct s; simpl; auto.
    + apply quiet_mapM. intros x _. apply quiet_bind; [auto|]. intro t. apply quiet_bind; auto.
  - destruct ser as [s|]; [|auto].
    pose proof (quiet_ser_dict to_dict_v s (VMsg c d) (quiet_to_dict_v _)) as Hq.
    destruct (ser_dict to_dict_v s (VMsg c d)) as [x|e]; simpl.
    + unfold json_dumps. destruct (jerr x) as [e|] eqn:E; [|auto]. apply jerr_cases in E.
      destruct E as [-> | ->]; auto.
    + destruct e; auto; exfalso; apply Hq; reflexivity.
Qed.

Lemma quiet_ue_params : forall l, quiet (ue_params l).
Proof.
  intro l. unfold ue_params. destruct (urlencode _); [auto|]. intro H. injection H as H. revert H.
  induction l as [|[k []] l IH]; simpl; try discriminate. destruct (scalars s); [auto|discriminate].
Qed.

Lemma missing_required_iff : forall P (d : dict value), missing_required P d = true <->
  exists k s, In (k, s) P /\ p_req s = true /\ ~ In k (map fst d).
Proof.
  intros P d. unfold missing_required. rewrite existsb_exists. split.
  - intros [[k s] [Hin H]]. apply andb_true_iff in H. destruct H as [H1 H2]. exists k, s.
    repeat split; auto. intro Hc. apply dhas_In in Hc. simpl in H2. rewrite Hc in H2. discriminate.
  - intros [k [s [Hin [Hr Hn]]]]. exists (k, s). split; [assumption|]. simpl. rewrite Hr. simpl.
    apply negb_true_iff. destruct (dhas d k) eqn:E; [|reflexivity]. apply dhas_In in E. contradiction.
Qed.

Lemma quiet_to_dict_any : forall C d, quiet (to_dict C d).
Proof. intros C d. apply quiet_to_dict. apply Forall_forall. intros kv _. apply quiet_to_dict_v. Qed.
Lemma c11 : forall C lax d,
  to_urlencoded C lax d = Err EMissingRequiredAttribute <->
  lax = false /\ (exists k s, In (k, s) (cd_param C) /\ p_req s = true /\ ~ In k (map fst d)) /\ exists r, to_dict C d = Ok r.
Proof.
  intros C lax d. rewrite <- missing_required_iff. unfold to_urlencoded.
  assert (Q : (do ps <- mapM (fun kv => ue_entry (cd_param C) (fst kv) (snd kv)) d; ue_params (List.concat ps)) = Err EMissingRequiredAttribute -> False).
  { apply quiet_bind; [apply quiet_mapM; intros kv _; apply quiet_ue_entry|intro x; apply quiet_ue_params]. }
  destruct lax; simpl negb; cbn [andb].
  - split; [intro H; exfalso; exact (Q H)|intros [H _]; discriminate].
  - destruct (missing_required (cd_param C) d).
    + pose proof (quiet_to_dict_any C d) as Q'. destruct (to_dict C d) as [r|e]; cbn [bind].
      * split; [intros _; eauto|auto].
      * split; [intro H; exfalso; apply Q'; injection H as ->; reflexivity|intros (_ & _ & r & H); discriminate].
    + split; [intro H; exfalso; exact (Q H)|intros (_ & H & _); discriminate].
Qed.
Lemma c11_refused : forall C d, (exists k s, In (k, s) (cd_param C) /\ p_req s = true /\ ~ In k (map fst d)) ->
  exists e, to_urlencoded C false d = Err e /\ (to_dict C d = Err e \/ e = EMissingRequiredAttribute).
Proof.
  intros C d H. apply missing_required_iff in H. unfold to_urlencoded. rewrite H. cbn [negb andb].
  destruct (to_dict C d) as [r|e]; cbn [bind]; eauto.
Qed.

(** ** C12 *)
Lemma split_on_app_gen : forall c a b, split_on c (a ++ c :: b) = split_on c a ++ split_on c b.
Proof.
  intros c a b. induction a as [|x a IH]; simpl.
  - rewrite N.eqb_refl. reflexivity.
  - destruct (x =? c); simpl; [rewrite IH; reflexivity|]. rewrite IH.
    pose proof (split_on_nonempty c a) as Hn. destruct (split_on c a); [congruence|reflexivity].
Qed.

Lemma parse_qsl_app : forall a b, parse_qsl (a ++ 38 :: b) = parse_qsl a ++ parse_qsl b.
Proof. intros. unfold parse_qsl. rewrite split_on_app_gen, flat_map_app. reflexivity. Qed.

Lemma urlencode_no : forall c l s, urlencode l = Some s -> quoted_char c = false -> c <> 38 -> c <> 61 ->
  ~ In c s.
Proof.
  intros c l s H Hq H1 H2. unfold urlencode in H.
  destruct (all_some (map urlencode1 l)) as [fs|] eqn:E; [|discriminate]. injection H as <-.
  apply all_some_map in E. assert (G : forall f, In f fs -> ~ In c f).
  { clear - E Hq H2. induction E as [|[k v] f l fs Hf Hl IH]; intros g [].
    - subst g. unfold urlencode1 in Hf. simpl in Hf. destruct (quote_plus k) as [qk|] eqn:Ek; [|discriminate].
      destruct (quote_plus v) as [qv|] eqn:Ev; [|discriminate]. injection Hf as <-.
      apply quote_plus_chars in Ek, Ev. apply (quoted_no c) in Ek; [|assumption]. apply (quoted_no c) in Ev; [|assumption].
      intro Hin. apply in_app_iff in Hin. destruct Hin as [Hin|[Hin|Hin]].
      + apply has_char_In in Hin. congruence.
      + congruence.
      + apply has_char_In in Hin. congruence.
    - apply IH. assumption. }
  clear E. induction fs as [|f fs IH]; simpl; [auto|]. destruct fs as [|g fs].
  - apply G. left. reflexivity.
  - intro Hin. change (In c (f ++ [38] ++ join [38] (g :: fs))) in Hin. apply in_app_iff in Hin.
    destruct Hin as [Hin|Hin].
    + apply (G f); [left; reflexivity|assumption].
    + simpl in Hin. destruct Hin as [Hin|Hin]; [congruence|]. apply IH; [|assumption].
      intros h Hh. apply G. right. assumption.
Qed.

Lemma to_urlencoded_no : forall C lax d q c, to_urlencoded C lax d = Ok q ->
  quoted_char c = false -> c <> 38 -> c <> 61 -> ~ In c q.
Proof.
  intros C lax d q c H Hq H1 H2. unfold to_urlencoded in H.
  destruct (negb lax && missing_required (cd_param C) d); [destruct (to_dict C d); discriminate|].
  destruct (mapM _ d) as [ps|]; [|discriminate]. simpl in H. unfold ue_params in H.
  destruct (urlencode _) as [t|] eqn:E; [|discriminate]. injection H as <-.
  eapply urlencode_no; eassumption.
Qed.

Lemma before_hash_app : forall a b, ~ In 35 a -> before_hash (a ++ b) = a ++ before_hash b.
Proof.
  induction a as [|x a IH]; simpl; intros b H; [reflexivity|].
  destruct (x =? 35) eqn:E; [apply N.eqb_eq in E; subst; exfalso; auto|]. f_equal. auto.
Qed.

Lemma query_of_app : forall a b, ~ In 63 a -> query_of (a ++ 63 :: b) = before_hash b.
Proof.
  induction a as [|x a IH]; simpl; intros b H; [reflexivity|].
  destruct (x =? 63) eqn:E; [apply N.eqb_eq in E; subst; exfalso; auto|]. auto.
Qed.

Lemma query_of_none : forall a, ~ In 63 a -> query_of a = [].
Proof.
  induction a as [|x a IH]; simpl; intro H; [reflexivity|].
  destruct (x =? 63) eqn:E; [apply N.eqb_eq in E; subst; exfalso; auto|]. auto.
Qed.

Lemma split_first : forall (c : N) (s : ustr), In c s -> exists a b, s = a ++ c :: b /\ ~ In c a.
Proof.
  induction s as [|x s IH]; intro H; [destruct H|].
  destruct (N.eq_dec x c) as [->|Hn].
  - exists [], s. auto.
  - destruct H as [H|H]; [congruence|]. destruct (IH H) as [a [b [-> Hb]]].
    exists (x :: a), b. split; [reflexivity|]. intros [H1|H1]; auto.
Qed.

Lemma c12_shape : forall C d loc frag r, request C false d loc frag = Ok r ->
  exists q, to_urlencoded C false d = Ok q /\
    r = loc ++ (if frag then 35 else if has_char 63 loc then 38 else 63) :: q.
Proof.
  intros C d loc frag r H. unfold request in H. destruct (to_urlencoded C false d) as [q|e]; [|discriminate].
  simpl in H. injection H as <-. exists q. split; [reflexivity|]. destruct frag; [reflexivity|].
  destruct (has_char 63 loc); reflexivity.
Qed.

Lemma c12 : forall C d loc r q, request C false d loc false = Ok r -> to_urlencoded C false d = Ok q ->
  (In 63 loc -> r = loc ++ 38 :: q) /\
  (~ In 63 loc -> r = loc ++ 63 :: q) /\
  (~ In 35 loc -> parse_qsl (query_of r) = parse_qsl (query_of loc) ++ parse_qsl q).
Proof.
  intros C d loc r q H Hq. apply c12_shape in H. destruct H as [q' [Hq' Hr]].
  rewrite Hq in Hq'. injection Hq' as <-. cbv iota in Hr.
  assert (Hnh : ~ In 35 q) by (eapply to_urlencoded_no; [eassumption|reflexivity|discriminate|discriminate]).
  destruct (has_char 63 loc) eqn:E.
  - apply has_char_In in E. split; [auto|]. split; [intro; contradiction|]. intro Hh.
    destruct (split_first _ _ E) as [a [b [Hab Ha]]]. subst loc. subst r.
    rewrite <- app_assoc. cbn [app]. rewrite !query_of_app by assumption.
    assert (Hb : ~ In 35 b) by (intro Hc; apply Hh; apply in_app_iff; right; right; assumption).
    rewrite before_hash_app by assumption. rewrite (before_hash_id b) by assumption.
    cbn [before_hash]. replace (38 =? 35) with false by reflexivity. rewrite before_hash_id by assumption.
    apply parse_qsl_app.
  - assert (Hn : ~ In 63 loc) by (rewrite <- has_char_In; congruence).
    split; [intro; contradiction|]. split; [auto|]. intros _. subst r.
    rewrite query_of_app by assumption. rewrite before_hash_id by assumption.
    rewrite (query_of_none loc) by assumption. reflexivity.
Qed.

Lemma c12_fragment : forall C d loc r q, request C false d loc true = Ok r -> to_urlencoded C false d = Ok q ->
  r = loc ++ 35 :: q.
Proof.
  intros C d loc r q H Hq. apply c12_shape in H. destruct H as [q' [Hq' Hr]].
  rewrite Hq in Hq'. injection Hq' as <-. assumption.
Qed.

Lemma c12_error : forall C d loc frag e, request C false d loc frag = Err e <-> to_urlencoded C false d = Err e.
Proof.
  intros. unfold request. destruct (to_urlencoded C false d); cbn [bind]; split; intro H; inversion H; reflexivity.
Qed.

(** ** C07 *)
Lemma field_gives_parse : forall f k v, field_gives f k v -> parse_field f = [(k, v)].
Proof.
  intros f k v [name [val [Hf [Hn [Hv [Hk Hw]]]]]]. subst f. unfold parse_field.
  rewrite partition1_app.
  - destruct val as [|c val]; [congruence|]. rewrite Hk, Hw. reflexivity.
  - destruct (has_char 61 name) eqn:E; [|reflexivity]. apply has_char_In in E. contradiction.
Qed.

Lemma nth_two : forall A (l : list A) i j x y, (i < j)%nat -> nth_error l i = Some x -> nth_error l j = Some y ->
  exists a b c, l = a ++ x :: b ++ y :: c.
Proof.
  intros A. induction l as [|z l IH]; intros i j x y Hij Hi Hj.
  - destruct i; discriminate.
  - destruct j as [|j]; [lia|]. destruct i as [|i]; simpl in Hi, Hj.
    + injection Hi as <-. apply nth_error_split in Hj. destruct Hj as [b [c [-> _]]]. exists [], b, c. reflexivity.
    + destruct (IH i j x y) as [a [b [c ->]]]; [lia|assumption|assumption|]. exists (z :: a), b, c. reflexivity.
Qed.

Lemma given_twice_vals : forall q k, given_twice q k ->
  exists v w r, In (k, v :: w :: r) (parse_qs q).
Proof.
  intros q k [i [j [f [g [v [w [Hij [Hi [Hj [Hf Hg]]]]]]]]]].
  destruct (nth_two _ _ _ _ _ _ Hij Hi Hj) as [a [b [c Hs]]].
  assert (Hl : parse_qsl q = flat_map parse_field a ++ (k, v) :: flat_map parse_field b ++ (k, w) :: flat_map parse_field c).
  { unfold parse_qsl. rewrite Hs, flat_map_app. cbn [flat_map]. rewrite flat_map_app. cbn [flat_map].
    rewrite (field_gives_parse _ _ _ Hf), (field_gives_parse _ _ _ Hg). reflexivity. }
  unfold parse_qs. destruct (qs_group_keys (parse_qsl q)) as [Hnd Hk].
  assert (Hin : In k (map fst (qs_group (parse_qsl q)))).
  { apply Hk. rewrite Hl, map_app. apply in_app_iff. right. left. reflexivity. }
  apply in_map_iff in Hin. destruct Hin as [[k' vals] [Heq Hin]]. simpl in Heq. subst k'.
  pose proof (qs_get_In _ _ _ Hnd Hin) as Hg'. rewrite qs_group_get in Hg'.
  rewrite Hl, filter_app, map_app in Hg'. cbn [filter fst] in Hg'. rewrite ueqb_refl in Hg'. cbn [map snd] in Hg'.
  rewrite filter_app, map_app in Hg'. cbn [filter fst] in Hg'. rewrite ueqb_refl in Hg'. cbn [map snd] in Hg'.
  assert (Hlen : (2 <= List.length vals)%nat).
  { rewrite <- Hg', app_length. cbn [List.length]. rewrite app_length. cbn [List.length]. lia. }
  destruct vals as [|v1 [|v2 r]]; simpl in Hlen; try lia. exists v1, v2, r. assumption.
Qed.

Lemma from_fields_err : forall L P l d e, snd (from_fields L P d l) = Err e ->
  exists k vals, In (k, vals) l /\ fu_entry L P k vals = Err e.
Proof.
  induction l as [|[k vals] l IH]; intros d e H; [discriminate|]. simpl in H.
  destruct (fu_entry L P k vals) as [x|e'] eqn:E.
  - destruct (IH _ _ H) as [k' [v' [H1 H2]]]. exists k', v'. split; [right|]; assumption.
  - injection H as <-. exists k, vals. split; [left; reflexivity|assumption].
Qed.

Lemma from_fields_ok_iff : forall L P l d, snd (from_fields L P d l) = Ok tt <->
  (forall k vals, In (k, vals) l -> exists x, fu_entry L P k vals = Ok x).
Proof.
  induction l as [|[k0 v0] l IH]; intros d; simpl.
  - split; [intros _ k vals []|reflexivity].
  - destruct (fu_entry L P k0 v0) as [x|e] eqn:E.
    + rewrite IH. split; intros H k vals.
      * intros [Heq|Hin]; [injection Heq as <- <-; eauto|auto].
      * intro Hin. apply H. right. assumption.
    + split; [discriminate|]. intro H. destruct (H k0 v0 (or_introl eq_refl)) as [x Hx]. congruence.
Qed.

Lemma c07 : forall C d q k s, given_twice q k -> param_spec (cd_param C) k = Some s ->
  (forall t, p_typ s <> TList t) ->
  exists e, snd (from_urlencoded C d q) = Err e /\
    (e = ETooManyValues \/
     exists k' vals, k' <> k /\ In (k', vals) (parse_qs q) /\
       forall q' d', parse_qs q' = [(k', vals)] -> snd (from_urlencoded C d' q') = Err e).
Proof.
  intros C d q k s Hg Hs Ht. destruct (given_twice_vals _ _ Hg) as [v [w [r Hin]]].
  assert (Hfu : fu_entry the_lib (cd_param C) k (v :: w :: r) = Err ETooManyValues).
  { unfold fu_entry. rewrite <- param_spec_spec_of, Hs. destruct (p_typ s) eqn:E; try reflexivity.
    exfalso. eapply Ht. reflexivity. }
  unfold from_urlencoded. destruct (parse_qs q) as [|f fs] eqn:Eq; [destruct Hin|].
  rewrite (from_qs_fields _ _ _ _ _ _ Eq).
  destruct (snd (from_fields the_lib (cd_param C) d (f :: fs))) as [[]|e] eqn:Er.
  - exfalso. apply from_fields_ok_iff with (k := k) (vals := v :: w :: r) in Er; [|assumption].
    destruct Er as [x Hx]. congruence.
  - exists e. split; [reflexivity|]. apply from_fields_err in Er. destruct Er as [k' [vals [Hin' Hx]]].
    destruct (ueq_dec k' k) as [->|Hne].
    + left. destruct (qs_group_keys (parse_qsl q)) as [Hnd _]. unfold parse_qs in Eq. rewrite Eq in Hnd.
      pose proof (qs_get_In _ _ _ Hnd Hin) as H1. pose proof (qs_get_In _ _ _ Hnd Hin') as H2.
      rewrite H1 in H2. subst vals. congruence.
    + right. exists k', vals. repeat split; auto. intros q' d' Hq'.
      rewrite (from_qs_fields _ _ _ _ _ _ Hq'), from_fields_single, Hx. reflexivity.
Qed.

(** ** C15 *)
Lemma c15_refl : forall C d, wfv (VDict d) -> msg_eq C C d d = true.
Proof. intros C d H. unfold msg_eq. rewrite ueqb_refl. apply (py_eq_refl (VDict d)). assumption. Qed.

Lemma c15_sym : forall C1 C2 d1 d2, wfv (VDict d1) -> wfv (VDict d2) -> msg_eq C1 C2 d1 d2 = true ->
  msg_eq C2 C1 d2 d1 = true.
Proof.
  intros C1 C2 d1 d2 H1 H2 H. unfold msg_eq in *. apply andb_true_iff in H. destruct H as [Ha Hb].
  apply andb_true_iff. split.
  - rewrite ueqb_sym. assumption.
  - apply py_eq_sym; assumption.
Qed.

Lemma c15_trans : forall C1 C2 C3 d1 d2 d3, wfv (VDict d1) -> wfv (VDict d2) ->
  msg_eq C1 C2 d1 d2 = true -> msg_eq C2 C3 d2 d3 = true -> msg_eq C1 C3 d1 d3 = true.
Proof.
  intros C1 C2 C3 d1 d2 d3 H1 H2 H H'. unfold msg_eq in *. apply andb_true_iff in H, H'.
  destruct H as [Ha Hb]. destruct H' as [Ha' Hb']. apply andb_true_iff. split.
  - apply ueqb_eq in Ha, Ha'. apply ueqb_eq. congruence.
  - eapply py_eq_trans; [| |eassumption|eassumption]; assumption.
Qed.

Lemma msg_eq_content : forall C1 C2 d1 d2, NoDup (map fst d1) -> NoDup (map fst d2) ->
  (msg_eq C1 C2 d1 d2 = true <->
   cd_name C1 = cd_name C2 /\
   forall k, match dget d1 k, dget d2 k with
             | Some x, Some y => py_eq x y = true
             | None, None => True
             | _, _ => False
             end).
Proof.
  intros C1 C2 d1 d2 N1 N2. unfold msg_eq. rewrite andb_true_iff, ueqb_eq, py_eq_dict_unfold, andb_true_iff, Nat.eqb_eq.
  rewrite eq_all_spec by assumption. split.
  - intros [Hn [Hl H]]. split; [assumption|]. intro k. destruct (dget d1 k) as [x|] eqn:E1.
    + destruct (H _ _ E1) as [y [Hy1 Hy2]]. rewrite Hy1. assumption.
    + destruct (dget d2 k) as [y|] eqn:E2; [|exact I].
      assert (Hin : In k (map fst d2)) by (apply dget_Some_iff; eauto).
      assert (Hsub : forall x, In x (map fst d1) -> In x (map fst d2)).
      { intros x Hx. apply dget_Some_iff in Hx. destruct Hx as [v Hv]. destruct (H _ _ Hv) as [y' [Hy' _]].
        apply dget_Some_iff. eauto. }
      pose proof (same_get_length d1 d2 N1 N2 Hsub Hl k Hin) as Hk. apply dget_Some_iff in Hk.
      destruct Hk as [v Hv]. congruence.
  - intros [Hn H]. split; [assumption|]. split.
    + assert (Hk : forall k, In k (map fst d1) <-> In k (map fst d2)).
      { intro k. rewrite <- !dget_Some_iff. specialize (H k). destruct (dget d1 k), (dget d2 k);
          split; intros [x Hx]; eauto; try discriminate; contradiction. }
      rewrite <- (map_length fst d1), <- (map_length fst d2). apply Nat.le_antisymm.
      * apply NoDup_incl_length; [assumption|]. intros k Hin. apply Hk. assumption.
      * apply NoDup_incl_length; [assumption|]. intros k Hin. apply Hk. assumption.
    + intros k x Hx. specialize (H k). rewrite Hx in H. destruct (dget d2 k) as [y|]; [eauto|contradiction].
Qed.

(** ** C16 *)
Lemma dget_dupdate_rev : forall e (d : dict value) k,
  dget (dupdate d e) k = match dget (rev e) k with Some v => Some v | None => dget d k end.
Proof.
  induction e as [|[k0 v0] e IH]; intros d k; [reflexivity|]. rewrite dupdate_cons, IH. cbn [rev].
  rewrite dget_app. destruct (dget (rev e) k); [reflexivity|]. cbn [dget]. rewrite dget_dset.
  destruct (ueqb k k0); reflexivity.
Qed.

Definition abs (d : dict value) : amap := dget d.

Lemma aset_dset : forall d k v x, aset (abs d) k (Some v) x = abs (dset d k v) x.
Proof.
  intros d k v x. unfold aset, abs. rewrite dget_dset. destruct (ueq_dec x k) as [->|Hn].
  - rewrite ueqb_refl. reflexivity.
  - apply ueqb_neq in Hn. rewrite Hn. reflexivity.
Qed.

Lemma mstep_astep : forall C d o d' r, NoDup (map fst d) ->
  (forall k v, o = OSet k v -> ~ In k (map fst (cd_param C))) ->
  mstep C d o = (d', r) ->
  NoDup (map fst d') /\ exists m', astep (abs d) o m' r /\ forall k, m' k = abs d' k.
Proof.
  intros C d o d' r Hn Ho H. destruct o as [k v|k|e|k dv|k|k| |]; cbn [mstep] in H.
  - unfold setitem in H. specialize (Ho k v eq_refl). apply dget_None in Ho. rewrite Ho in H.
    cbn [outcome] in H. injection H as <- <-. split; [apply dset_nodup; assumption|].
    eexists. split; [apply ASet|]. apply aset_dset.
  - unfold delitem in H. destruct (dhas d k) eqn:E; cbn [outcome] in H; injection H as <- <-.
    + split; [apply ddel_nodup; assumption|]. apply dhas_true in E. destruct E as [v E].
      eexists. split; [eapply ADel; exact E|]. intro x. unfold aset, abs. rewrite dget_ddel.
      destruct (ueq_dec x k) as [->|Hx]; [rewrite ueqb_refl; reflexivity|].
      apply ueqb_neq in Hx. rewrite Hx. reflexivity.
    + split; [assumption|]. apply dhas_false in E. eexists. split; [apply ADelMiss; exact E|reflexivity].
  - cbn [update outcome] in H. injection H as <- <-. split; [apply dupdate_nodup; assumption|].
    eexists. split; [apply AUpdate|]. intro x. unfold abs. rewrite dget_dupdate_rev. reflexivity.
  - injection H as <- <-. split; [assumption|]. exists (abs d). split; [|reflexivity].
    unfold get. destruct (dget d k) eqn:E; [apply AGet|apply AGetMiss]; exact E.
  - injection H as <- <-. split; [assumption|]. exists (abs d). split; [|reflexivity].
    unfold getitem. destruct (dget d k) eqn:E; [apply AItem|apply AItemMiss]; exact E.
  - injection H as <- <-. split; [assumption|]. exists (abs d). split; [|reflexivity].
    destruct (dhas d k) eqn:E.
    + apply dhas_true in E. destruct E as [v E]. eapply AIn. exact E.
    + apply dhas_false in E. apply AInMiss. exact E.
  - injection H as <- <-. split; [assumption|]. exists (abs d). split; [|reflexivity].
    rewrite <- (map_length fst d). apply ALen; [assumption|]. intro k. unfold abs.
    rewrite <- dget_Some_iff. destruct (dget d k); split; intro H; eauto; try congruence.
    destruct H; discriminate.
  - injection H as <- <-. split; [assumption|]. exists (abs d). split; [|reflexivity].
    apply AKeys; [assumption|]. intro k. unfold abs, dkeys.
    rewrite <- dget_Some_iff. destruct (dget d k); split; intro H; eauto; try congruence.
    destruct H; discriminate.
Qed.

Lemma astep_ext : forall m m2 o m' r, (forall k, m k = m2 k) -> astep m o m' r ->
  exists m2', astep m2 o m2' r /\ forall k, m' k = m2' k.
Proof.
  intros m m2 o m' r He H. inversion H; subst.
  - eexists. split; [apply ASet|]. intro x. unfold aset. destruct (ueq_dec x k); auto.
  - eexists. split; [eapply ADel; rewrite <- He; eassumption|]. intro x. unfold aset. destruct (ueq_dec x k); auto.
  - eexists. split; [apply ADelMiss; rewrite <- He; assumption|assumption].
  - eexists. split; [apply AUpdate|]. intro x. cbv beta. destruct (dget (rev e) x); auto.
  - eexists. split; [apply AGet; rewrite <- He; assumption|assumption].
  - eexists. split; [apply AGetMiss; rewrite <- He; assumption|assumption].
  - eexists. split; [apply AItem; rewrite <- He; assumption|assumption].
  - eexists. split; [apply AItemMiss; rewrite <- He; assumption|assumption].
  - eexists. split; [eapply AIn; rewrite <- He; eassumption|assumption].
  - eexists. split; [apply AInMiss; rewrite <- He; assumption|assumption].
  - eexists. split; [apply ALen; [assumption|]|assumption]. intro k. rewrite <- He. auto.
  - eexists. split; [apply AKeys; [assumption|]|assumption]. intro k. rewrite <- He. auto.
Qed.

Lemma aruns_ext : forall m os m' rs, aruns m os m' rs -> forall m2, (forall k, m k = m2 k) -> aruns m2 os m' rs.
Proof.
  intros m os m' rs H. induction H as [m m' He|m o m1 r os m2 rs Hs Hr IH]; intros m0 He0.
  - constructor. intro k. rewrite <- He0. auto.
  - destruct (astep_ext _ _ _ _ _ He0 Hs) as [m1' [H1 H2]]. econstructor; [exact H1|]. apply IH. assumption.
Qed.

Lemma c16 : forall C os d d' rs, NoDup (map fst d) ->
  (forall k v, In (OSet k v) os -> ~ In k (map fst (cd_param C))) ->
  mruns C d os = (d', rs) ->
  aruns (fun k => dget d k) os (fun k => dget d' k) rs /\ NoDup (map fst d').
Proof.
  intros C os. induction os as [|o os IH]; intros d d' rs Hn Ho H; cbn [mruns] in H.
  - injection H as <- <-. split; [constructor; reflexivity|assumption].
  - destruct (mstep C d o) as [d1 x] eqn:E1. destruct (mruns C d1 os) as [d2 xs] eqn:E2. injection H as <- <-.
    destruct (mstep_astep C d o d1 x Hn) as [Hn1 [m1 [Hs He]]]; [|assumption|].
    + intros k v ->. apply Ho with (v := v). left. reflexivity.
    + destruct (IH d1 d2 xs Hn1) as [Hr Hn2]; [|assumption|].
      * intros k v Hin. apply Ho with (v := v). right. assumption.
      * split; [|assumption]. econstructor; [exact Hs|]. eapply aruns_ext; [exact Hr|].
        intro k. symmetry. apply He.
Qed.
