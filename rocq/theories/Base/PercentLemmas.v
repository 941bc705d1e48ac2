From Coq Require Import List NArith ZArith Bool Lia ZifyBool ZifyN.
From Verif Require Import Base.Ustr Base.UstrLemmas Base.Utf8 Base.Utf8Lemmas Base.Percent.
Import ListNotations.
Open Scope N_scope.
Ltac Zify.zify_post_hook ::= Z.div_mod_to_equations.

Lemma hexv_hexc : forall n, n < 16 -> hexv (hexc n) = Some n.
Proof.
  intros n H. unfold hexv, hexc, is_digit.
  destruct (n <? 10) eqn:E.
  - replace ((48 <=? 48 + n) && (48 + n <=? 57)) with true by lia. f_equal. lia.
  - replace ((48 <=? 55 + n) && (55 + n <=? 57)) with false by lia.
    replace ((65 <=? 55 + n) && (55 + n <=? 70)) with true by lia. f_equal. lia.
Qed.

(** characters that can occur in quoted text *)
Definition quoted_char (c : N) : bool := url_safe c || (c =? 37) || (c =? 43).

Lemma quote_byte_chars : forall b, b < 256 -> forallb quoted_char (quote_byte b) = true.
Proof.
  intros b H. unfold quote_byte. destruct (url_safe b) eqn:E.
  - simpl. unfold quoted_char. rewrite E. reflexivity.
  - destruct (b =? 32); [reflexivity|].
    assert (Hh : forall n, n < 16 -> quoted_char (hexc n) = true).
    { intros n Hn. unfold quoted_char, url_safe, hexc, is_alpha, is_upper, is_lower, is_digit.
      destruct (n <? 10) eqn:?; lia. }
    simpl. rewrite !Hh by lia. reflexivity.
Qed.

Lemma quote_bytes_chars : forall bs, forallb (fun b => b <? 256) bs = true ->
  forallb quoted_char (quote_bytes bs) = true.
Proof.
  induction bs as [|b bs IH]; simpl; intro H; [reflexivity|].
  apply andb_true_iff in H. destruct H as [H1 H2].
  rewrite forallb_app, quote_byte_chars, IH by (auto; lia). reflexivity.
Qed.

Lemma quote_plus_chars : forall s q, quote_plus s = Some q -> forallb quoted_char q = true.
Proof.
  intros s q H. unfold quote_plus in H. destruct (utf8_encode s) as [b|] eqn:E; [|discriminate].
  injection H as <-. apply quote_bytes_chars. eapply utf8_encode_bytes. eassumption.
Qed.

Lemma quoted_no : forall c q, quoted_char c = false -> forallb quoted_char q = true -> has_char c q = false.
Proof.
  intros c q Hc H. destruct (has_char c q) eqn:E; [|reflexivity].
  apply has_char_In in E. rewrite forallb_forall in H. rewrite (H _ E) in Hc. discriminate.
Qed.

Lemma unquote_quote_byte : forall b rest, b < 256 ->
  unquote_bytes (replace_char 43 32 (quote_byte b) ++ rest) = b :: unquote_bytes rest.
Proof.
  intros b rest Hb. unfold quote_byte. destruct (url_safe b) eqn:E.
  - simpl. unfold url_safe, is_alpha, is_upper, is_lower, is_digit in E.
    destruct (b =? 43) eqn:E1; [lia|]. destruct (b =? 37) eqn:E2; [lia|]. reflexivity.
  - destruct (b =? 32) eqn:E3.
    + apply N.eqb_eq in E3. subst b. reflexivity.
    + assert (Hr : forall n, n < 16 -> (hexc n =? 43) = false).
      { intros n Hn. unfold hexc. destruct (n <? 10) eqn:?; lia. }
      cbn [replace_char map]. rewrite !Hr by lia.
      change (37 =? 43) with false. cbv iota.
      cbn [app unquote_bytes]. change (37 =? 37) with true. cbv iota.
      rewrite !hexv_hexc by lia. f_equal. lia.
Qed.

Lemma unquote_quote_bytes : forall bs, forallb (fun b => b <? 256) bs = true ->
  unquote_bytes (replace_char 43 32 (quote_bytes bs)) = bs.
Proof.
  induction bs as [|b bs IH]; intro H; [reflexivity|].
  cbn [forallb] in H. apply andb_true_iff in H. destruct H as [H1 H2].
  change (quote_bytes (b :: bs)) with (quote_byte b ++ quote_bytes bs).
  unfold replace_char. rewrite map_app.
  change (map (fun x : N => if x =? 43 then 32 else x)) with (replace_char 43 32).
  rewrite unquote_quote_byte by lia. rewrite IH by assumption. reflexivity.
Qed.

Lemma unquote_go_ascii : forall s run, forallb is_ascii s = true ->
  unquote_go run s = utf8_decode (unquote_bytes (run ++ s)).
Proof.
  induction s as [|c s IH]; intros run H.
  - rewrite app_nil_r. reflexivity.
  - cbn [forallb] in H. apply andb_true_iff in H. destruct H as [H1 H2].
    cbn [unquote_go]. rewrite H1, IH by assumption. rewrite <- app_assoc. reflexivity.
Qed.

Lemma quoted_ascii : forall c, quoted_char c = true -> is_ascii (if c =? 43 then 32 else c) = true.
Proof.
  intros c H. unfold is_ascii, quoted_char, url_safe, is_alpha, is_upper, is_lower, is_digit in *.
  destruct (c =? 43) eqn:E; lia.
Qed.

Lemma unquote_plus_quoted : forall q, forallb quoted_char q = true ->
  unquote_plus q = utf8_decode (unquote_bytes (replace_char 43 32 q)).
Proof.
  intros q H. unfold unquote_plus, unquote. rewrite unquote_go_ascii; [reflexivity|].
  unfold replace_char. rewrite forallb_forall in *. intros x Hx. apply in_map_iff in Hx.
  destruct Hx as [y [<- Hy]]. apply quoted_ascii. auto.
Qed.

Lemma unquote_quote_plus : forall s q, quote_plus s = Some q -> unquote_plus q = s.
Proof.
  intros s q H. pose proof (quote_plus_chars _ _ H) as Hc. unfold quote_plus in H.
  destruct (utf8_encode s) as [b|] eqn:E; [|discriminate]. injection H as <-.
  rewrite unquote_plus_quoted by assumption.
  rewrite unquote_quote_bytes by (eapply utf8_encode_bytes; eassumption).
  apply utf8_dec_enc. assumption.
Qed.

Lemma quote_plus_scalars : forall s, scalars s = true <-> exists q, quote_plus s = Some q.
Proof.
  intro s. rewrite utf8_encode_scalars. unfold quote_plus. split.
  - intros [b ->]. eexists. reflexivity.
  - intros [q H]. destruct (utf8_encode s); [eauto | discriminate].
Qed.

Lemma quote_bytes_nonempty : forall bs, bs <> [] -> quote_bytes bs <> [].
Proof.
  intros [|b bs] H; [congruence|]. unfold quote_bytes. simpl. unfold quote_byte.
  destruct (url_safe b); [discriminate|]. destruct (b =? 32); discriminate.
Qed.

Lemma quote_plus_nonempty : forall s q, quote_plus s = Some q -> s <> [] -> q <> [].
Proof.
  intros s q H Hs. unfold quote_plus in H. destruct (utf8_encode s) as [b|] eqn:E; [|discriminate].
  injection H as <-. apply quote_bytes_nonempty. eapply utf8_encode_nonempty; eassumption.
Qed.

Lemma all_some_map : forall A B (f : A -> option B) l r, all_some (map f l) = Some r ->
  Forall2 (fun x y => f x = Some y) l r.
Proof.
  induction l as [|x l IH]; simpl; intros r H.
  - injection H as <-. constructor.
  - destruct (f x) as [y|] eqn:E; [|discriminate].
    destruct (all_some (map f l)) as [r'|] eqn:E'; [|discriminate].
    injection H as <-. constructor; auto.
Qed.

Lemma all_some_total : forall A B (f : A -> option B) l,
  (forall x, In x l -> exists y, f x = Some y) -> exists r, all_some (map f l) = Some r.
Proof.
  induction l as [|x l IH]; simpl; intro H; [eauto|].
  destruct (H x (or_introl eq_refl)) as [y Hy]. rewrite Hy.
  destruct IH as [r Hr]; [auto|]. rewrite Hr. eexists. reflexivity.
Qed.

Lemma urlencode1_field : forall k v f, urlencode1 (k, v) = Some f -> v <> [] ->
  parse_field f = [(k, v)] /\ has_char 38 f = false /\ f <> [].
Proof.
  intros k v f H Hv. unfold urlencode1 in H. simpl in H.
  destruct (quote_plus k) as [qk|] eqn:Ek; [|discriminate].
  destruct (quote_plus v) as [qv|] eqn:Ev; [|discriminate].
  injection H as <-.
  pose proof (quote_plus_chars _ _ Ek) as Ck. pose proof (quote_plus_chars _ _ Ev) as Cv.
  split; [|split].
  - unfold parse_field. rewrite partition1_app by (apply quoted_no; [reflexivity|assumption]).
    pose proof (quote_plus_nonempty _ _ Ev Hv) as Hne. destruct qv as [|x qv]; [congruence|].
    rewrite (unquote_quote_plus _ _ Ek), (unquote_quote_plus _ _ Ev). reflexivity.
  - rewrite has_char_app. cbn [has_char existsb].
    rewrite (quoted_no 38 qk) by (auto; reflexivity).
    simpl. apply quoted_no; [reflexivity|assumption].
  - destruct qk; discriminate.
Qed.

Lemma urlencode_parse_qsl : forall l s, urlencode l = Some s ->
  (forall k v, In (k, v) l -> v <> []) -> parse_qsl s = l.
Proof.
  intros l s H Hv. unfold urlencode in H.
  destruct (all_some (map urlencode1 l)) as [fs|] eqn:E; [|discriminate].
  injection H as <-. apply all_some_map in E.
  destruct l as [|kv l].
  - inversion E; subst. reflexivity.
  - unfold parse_qsl.
    assert (Hne : fs <> []) by (inversion E; discriminate).
    rewrite join_split; auto.
    + clear Hne. induction E as [|[k v] f l' fs' Hf HF IH]; [reflexivity|].
      cbn [flat_map]. destruct (urlencode1_field k v f Hf) as [H1 _].
      { apply (Hv k v). left. reflexivity. }
      rewrite H1. simpl. f_equal. apply IH. intros k0 v0 Hin. apply (Hv k0 v0). right. assumption.
    + clear Hne. induction E as [|[k v] f l' fs' Hf HF IH]; [reflexivity|].
      cbn [forallb]. destruct (urlencode1_field k v f Hf) as [_ [H2 _]].
      { apply (Hv k v). left. reflexivity. }
      rewrite H2. simpl. apply IH. intros k0 v0 Hin. apply (Hv k0 v0). right. assumption.
Qed.

Lemma urlencode_total : forall l,
  (forall k v, In (k, v) l -> scalars k = true /\ scalars v = true) ->
  exists s, urlencode l = Some s.
Proof.
  intros l H. unfold urlencode.
  destruct (all_some_total _ _ urlencode1 l) as [r Hr].
  - intros [k v] Hin. destruct (H k v Hin) as [Hk Hv].
    apply quote_plus_scalars in Hk. apply quote_plus_scalars in Hv.
    destruct Hk as [qk Hk], Hv as [qv Hv]. unfold urlencode1. simpl. rewrite Hk, Hv. eauto.
  - rewrite Hr. eexists. reflexivity.
Qed.

Lemma qs_add_new : forall d k v, ~ In k (map fst d) -> qs_add d k v = d ++ [(k, [v])].
Proof.
  induction d as [|[k' l] d IH]; simpl; intros k v H; [reflexivity|].
  destruct (ueqb k k') eqn:E.
  - apply ueqb_eq in E. subst. exfalso. apply H. left. reflexivity.
  - rewrite IH; auto.
Qed.

Lemma qs_group_go : forall l d, NoDup (map fst d ++ map fst l) ->
  fold_left (fun d kv => qs_add d (fst kv) (snd kv)) l d = d ++ map (fun kv => (fst kv, [snd kv])) l.
Proof.
  induction l as [|[k v] l IH]; intros d H; simpl.
  - rewrite app_nil_r. reflexivity.
  - simpl in H. rewrite qs_add_new.
    + rewrite IH.
      * rewrite <- app_assoc. reflexivity.
      * rewrite map_app, <- app_assoc. exact H.
    + intro Hin. apply NoDup_remove_2 in H. apply H. apply in_or_app. left. assumption.
Qed.

Lemma qs_group_nodup : forall l, NoDup (map fst l) ->
  qs_group l = map (fun kv => (fst kv, [snd kv])) l.
Proof. intros l H. unfold qs_group. rewrite qs_group_go; auto. Qed.

(** what [qs_group] collects for a key *)
Fixpoint qs_get (d : list (ustr * list ustr)) (k : ustr) : list ustr :=
  match d with
  | [] => []
  | (k', l) :: r => if ueqb k k' then l else qs_get r k
  end.

Lemma qs_get_add : forall d k v k0,
  qs_get (qs_add d k v) k0 = qs_get d k0 ++ (if ueqb k0 k then [v] else []).
Proof.
  induction d as [|[k' l] d IH]; intros k v k0; simpl.
  - destruct (ueqb k0 k); reflexivity.
  - destruct (ueqb k k') eqn:E; simpl.
    + apply ueqb_eq in E. subst k'. destruct (ueqb k0 k) eqn:E0; [reflexivity|].
      rewrite app_nil_r. reflexivity.
    + destruct (ueqb k0 k') eqn:E0.
      * apply ueqb_eq in E0. subst k0. rewrite ueqb_sym, E. rewrite app_nil_r. reflexivity.
      * apply IH.
Qed.

Lemma qs_group_get_go : forall l d k,
  qs_get (fold_left (fun d kv => qs_add d (fst kv) (snd kv)) l d) k =
  qs_get d k ++ map snd (filter (fun kv => ueqb k (fst kv)) l).
Proof.
  induction l as [|[k' v] l IH]; intros d k; simpl.
  - rewrite app_nil_r. reflexivity.
  - rewrite IH, qs_get_add, <- app_assoc. f_equal.
    destruct (ueqb k k'); reflexivity.
Qed.

Lemma qs_group_get : forall l k,
  qs_get (qs_group l) k = map snd (filter (fun kv => ueqb k (fst kv)) l).
Proof. intros. unfold qs_group. rewrite qs_group_get_go. reflexivity. Qed.

Lemma qs_add_keys : forall d k v, NoDup (map fst d) -> NoDup (map fst (qs_add d k v)) /\
  (forall x, In x (map fst (qs_add d k v)) <-> In x (map fst d) \/ x = k).
Proof.
  induction d as [|[k' l] d IH]; intros k v H; simpl.
  - split; [constructor; [intros []|constructor]|]. intro x. split; [intros [<-|[]]; auto | intros [[]| ->]; auto].
  - inversion H as [|? ? Hn Hd]; subst. destruct (ueqb k k') eqn:E; simpl.
    + apply ueqb_eq in E. subst. split; [assumption|]. intro x. split; [auto|]. intros [Hx | ->]; auto.
    + destruct (IH k v Hd) as [H1 H2]. split.
      * constructor; auto. intro Hin. apply H2 in Hin. destruct Hin as [Hin | ->]; [contradiction|].
        rewrite ueqb_refl in E. discriminate.
      * intro x. rewrite H2. tauto.
Qed.

Lemma qs_group_keys : forall l, NoDup (map fst (qs_group l)) /\
  forall x, In x (map fst (qs_group l)) <-> In x (map fst l).
Proof.
  intro l. unfold qs_group.
  assert (G : forall l d, NoDup (map fst d) ->
    NoDup (map fst (fold_left (fun d kv => qs_add d (fst kv) (snd kv)) l d)) /\
    forall x, In x (map fst (fold_left (fun d kv => qs_add d (fst kv) (snd kv)) l d)) <->
              In x (map fst d) \/ In x (map fst l)).
  { clear. induction l as [|[k v] l IH]; intros d H; simpl.
    - split; [assumption|]. intro x. tauto.
    - destruct (qs_add_keys d k v H) as [H1 H2]. destruct (IH _ H1) as [H3 H4].
      split; [assumption|]. intro x. rewrite H4, H2. split; [|]; intuition (subst; auto). }
  destruct (G l [] (NoDup_nil _)) as [H1 H2]. split; [assumption|]. intro x. rewrite H2. simpl. tauto.
Qed.

Lemma qs_get_In : forall d k l, NoDup (map fst d) -> (In (k, l) d -> qs_get d k = l).
Proof.
  induction d as [|[k' l'] d IH]; simpl; intros k l H Hin; [contradiction|].
  inversion H as [|? ? Hn Hd]; subst. destruct Hin as [Heq|Hin].
  - injection Heq as -> ->. rewrite ueqb_refl. reflexivity.
  - destruct (ueqb k k') eqn:E; [|auto].
    apply ueqb_eq in E. subst. exfalso. apply Hn. apply in_map_iff. exists (k', l). auto.
Qed.
