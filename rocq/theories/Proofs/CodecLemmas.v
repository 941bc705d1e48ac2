(** Storage keys and the (space separated) list serializers. *)
From Coq Require Import List NArith ZArith Bool Lia ZifyBool ZifyN.
From Verif Require Import Base.Ustr Base.UstrLemmas Base.Utf8 Base.Percent Base.PercentLemmas
  Model.Value Model.Pspec Model.Message Model.Converter Spec.CodecSpec.
Import ListNotations.
Open Scope list_scope.
Open Scope N_scope.

Lemma encodable_iff : forall s, encodable s <-> scalars s = true.
Proof.
  intro s. unfold encodable, scalars. rewrite forallb_forall, Forall_forall.
  split; intros H x Hx; specialize (H x Hx); unfold scalar in *; lia.
Qed.

Lemma qpkey_total : forall k, encodable k -> exists q, qpkey_serialize k = Ok q.
Proof.
  intros k H. apply encodable_iff in H. apply quote_plus_scalars in H. destruct H as [q H].
  exists q. unfold qpkey_serialize. rewrite H. reflexivity.
Qed.

Lemma qpkey_roundtrip : forall k q, qpkey_serialize k = Ok q -> qpkey_deserialize q = k.
Proof.
  unfold qpkey_serialize, qpkey_deserialize. intros k q H.
  destruct (quote_plus k) eqn:E; [|discriminate]. injection H as <-.
  eapply unquote_quote_plus. eassumption.
Qed.

Lemma qpkey_chars : forall k q, qpkey_serialize k = Ok q -> Forall filename_char q.
Proof.
  unfold qpkey_serialize. intros k q H. destruct (quote_plus k) eqn:E; [|discriminate].
  injection H as <-. apply quote_plus_chars in E. rewrite forallb_forall in E.
  apply Forall_forall. intros c Hc. apply E in Hc.
  unfold quoted_char, url_safe, is_alpha, is_upper, is_lower, is_digit in Hc. unfold filename_char. lia.
Qed.

Lemma qpkey_inj : forall k1 k2 q, qpkey_serialize k1 = Ok q -> qpkey_serialize k2 = Ok q -> k1 = k2.
Proof. intros k1 k2 q H1 H2. apply qpkey_roundtrip in H1, H2. congruence. Qed.

Lemma qpkey_codec : forall k, encodable k ->
  exists q, qpkey_serialize k = Ok q /\ qpkey_deserialize q = k /\ Forall filename_char q /\
    forall k', qpkey_serialize k' = Ok q -> k' = k.
Proof.
  intros k H. destruct (qpkey_total _ H) as [q Hq]. exists q. repeat split; try assumption.
  - apply qpkey_roundtrip. assumption.
  - eapply qpkey_chars. eassumption.
  - intros k' Hk'. eapply qpkey_inj; eassumption.
Qed.

(** ** lists *)
Lemma all_some_strs : forall l, strs_of (map VStr l) = Some l.
Proof.
  unfold strs_of. induction l as [|x l IH]; [reflexivity|]. simpl.
  rewrite IH. reflexivity.
Qed.

Lemma sp_join_strs : forall l, sp_join (VList (map VStr l)) = Ok (join [32] l).
Proof. intro l. unfold sp_join. simpl. rewrite all_some_strs. reflexivity. Qed.

Lemma blank_free_iff : forall l, blank_free l <-> forallb (fun s => negb (has_char 32 s)) l = true.
Proof.
  intro l. unfold blank_free. rewrite forallb_forall, Forall_forall.
  split; intros H x Hx; specialize (H x Hx).
  - apply negb_true_iff. destruct (has_char 32 x) eqn:E; [|reflexivity].
    exfalso. apply H. apply has_char_In. assumption.
  - apply negb_true_iff in H. intro Hc. apply has_char_In in Hc. congruence.
Qed.

Lemma list_deser_inverse : forall l, l <> [] -> blank_free l ->
  forall L, deser_step L DeList (VStr (join [32] l)) Furl = Ok (VList (map VStr l)) /\
  deser_step L DeSpSep (VStr (join [32] l)) Furl = Ok (VList (map VStr l)) /\
  deser_step L DeSpSep (VStr (join [32] l)) Fdict = Ok (VList (map VStr l)).
Proof.
  intros l Hl Hb L. apply blank_free_iff in Hb. cbn [deser_step sp_split].
  rewrite join_split by assumption. auto.
Qed.

Lemma split_blank_free : forall s, blank_free (split_on 32 s).
Proof.
  intro s. apply Forall_forall. intros x Hx Hc. apply split_on_parts in Hx.
  apply has_char_In in Hc. congruence.
Qed.

Lemma map_VStr_inj : forall l m, map VStr l = map VStr m -> l = m.
Proof.
  induction l as [|x l IH]; intros [|y m] H; try discriminate; [reflexivity|].
  injection H as H1 H2. subst. f_equal. auto.
Qed.

Lemma c21 : forall l : list ustr, l <> [] ->
  exists t,
    ser_url_list SerList (VList (map VStr l)) = Ok t /\
    ser_url_list SerSpSep (VList (map VStr l)) = Ok t /\
    ser_dict to_dict_v SerSpSep (VList (map VStr l)) = Ok (VStr t) /\
    forall fmt r, l_deser the_lib DeSpSep (VStr t) fmt = Ok r \/ l_deser the_lib DeList (VStr t) Furl = Ok r ->
      (r = VList (map VStr l) <-> blank_free l).
Proof.
  intros l Hl. exists (join [32] l). cbn [ser_url_list ser_dict]. rewrite sp_join_strs.
  repeat split; try reflexivity.
  - intro Hr. subst r. destruct H as [H|H]; cbn in H.
    + injection H as H. apply map_VStr_inj in H. rewrite <- H. apply split_blank_free.
    + injection H as H. apply map_VStr_inj in H. rewrite <- H. apply split_blank_free.
  - intro Hb. apply blank_free_iff in Hb.
    destruct H as [H|H]; cbn in H; rewrite join_split in H by assumption; injection H as <-; reflexivity.
Qed.

Lemma c21_total : forall t fmt, exists r1 r2,
  l_deser the_lib DeSpSep (VStr t) fmt = Ok (VList r1) /\ l_deser the_lib DeList (VStr t) Furl = Ok (VList r2).
Proof. intros. cbn. eauto. Qed.
