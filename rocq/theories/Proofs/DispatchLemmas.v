(** serialize, deserialize, texts that are no messages, error responses. *)
From Coq Require Import List NArith ZArith Bool String Lia.
From Verif Require Import Base.Ustr Base.UstrLemmas Base.Percent Base.PercentLemmas Model.Cls Model.Value Model.Pspec Model.Tables Model.Float Model.Json Model.Message
  Model.Dispatch Spec.MessageSpec Spec.RoundTripSpec Spec.DispatchSpec
  Proofs.ValueLemmas Proofs.MessageLemmas Proofs.EncodeLemmas Proofs.RoundTrip.
Import ListNotations.
Open Scope list_scope.
Open Scope N_scope.

Lemma parse_field_gives : forall f k v, In (k, v) (parse_field f) <-> field_gives f k v.
Proof.
  intros f k v. split.
  - intro H. unfold parse_field in H. destruct (has_char 61 f) eqn:E.
    + apply has_char_In in E. destruct (split_first _ _ E) as [a [b [-> Ha]]]. rewrite partition1_app in H by (apply not_true_is_false; rewrite has_char_In; exact Ha).
      destruct b as [|x b]; [destruct H|]. destruct H as [H|[]]. injection H as <- <-.
      exists a, (x :: b). repeat split; auto. discriminate.
    + rewrite partition1_none in H by exact E. destruct H.
  - intro H. rewrite (field_gives_parse _ _ _ H). left. reflexivity.
Qed.
Lemma parse_qs_gives : forall q k, In k (map fst (parse_qs q)) <-> gives q k.
Proof.
  intros q k. unfold parse_qs. destruct (qs_group_keys (parse_qsl q)) as [_ Hk]. rewrite Hk.
  unfold parse_qsl. split.
  - intro H. apply in_map_iff in H. destruct H as [[k' v] [<- H]]. apply in_flat_map in H.
    destruct H as [f [Hf H]]. exists f, v. split; [exact Hf|]. apply parse_field_gives. exact H.
  - intros (f & v & Hf & H). apply in_map_iff. exists (k, v). split; [reflexivity|]. apply in_flat_map.
    exists f. split; [exact Hf|]. apply parse_field_gives. exact H.
Qed.
Lemma from_fields_keys : forall L P l d d', from_fields L P d l = (d', Ok tt) ->
  forall k, In k (map fst d') <-> In k (map fst d) \/ In k (map fst l).
Proof.
  intros L P. induction l as [|[k0 vals] l IH]; intros d d' H k; cbn [from_fields] in H.
  - injection H as <-. cbn [map In]. tauto.
  - destruct (fu_entry L P k0 vals) as [x|e]; [|discriminate]. rewrite (IH _ _ H k), dset_keys. cbn [map fst In].
    intuition congruence.
Qed.
Lemma c111_keys : forall C d d' q, from_urlencoded C d q = (d', Ok tt) ->
  (q <> [] -> exists k, gives q k) /\ forall k, In k (map fst d') <-> In k (map fst d) \/ gives q k.
Proof.
  intros C d d' q H. unfold from_urlencoded, from_qs in H. destruct (parse_qs q) as [|[k0 v0] fs] eqn:E.
  - destruct q as [|c q]; [|discriminate]. injection H as <-. split; [congruence|].
    intro k. rewrite <- parse_qs_gives. rewrite E. cbn [map In]. tauto.
  - split.
    + intros _. exists k0. apply parse_qs_gives. rewrite E. left. reflexivity.
    + intro k. rewrite (from_fields_keys _ _ _ _ _ H k), <- E, parse_qs_gives. tauto.
Qed.
Lemma c111_query : forall C d q,
  from_urlencoded C d [] = (d, Ok tt) /\
  (q <> [] -> (forall k, ~ gives q k) -> from_urlencoded C d q = (d, Err EFormatError)).
Proof.
  intros C d q. split; [reflexivity|]. intros Hq H. unfold from_urlencoded, from_qs.
  destruct (parse_qs q) as [|[k0 v0] fs] eqn:E.
  - destruct q; [congruence|reflexivity].
  - exfalso. apply (H k0). apply parse_qs_gives. rewrite E. left. reflexivity.
Qed.

Lemma jnum_int : forall b s v r, jnum b s = Ok (v, r) -> (exists z, v = VInt z) \/ exists q, v = VFlt q.
Proof.
  intros b s v r H. unfold jnum in H. destruct s as [|c s]; [discriminate|].
  destruct (is_digit c); [|discriminate].
  destruct (if c =? 48 then ([48], s) else span is_digit (c :: s)) as [ds rest].
  destruct (jfrac rest) as [fs rest1]. destruct (jexp rest1) as [ex rest2]. cbv zeta in H.
  destruct fs as [|f fs]; [destruct ex as [x|]|]; [|left; injection H as <- _; eauto|];
    (destruct (float_of _ _); [|discriminate]; right; injection H as <- _; eauto).
Qed.
Lemma jval_no_msg : forall n s v r, jval n s = Ok (v, r) -> forall c d, v <> VMsg c d.
Proof.
  intros [|n] s v r H c d ->; [discriminate|]. destruct s as [|x s]; [discriminate|]. cbn [jval] in H.
  destruct (x =? 34). { destruct (jscan s) as [[? ?]|]; discriminate. }
  destruct (x =? 123).
  { destruct (skipws s) as [|c1 r1]; [discriminate|]. destruct (c1 =? 125); [discriminate|].
    destruct (jobj n (c1 :: r1)) as [[? ?]|]; discriminate. }
  destruct (x =? 91).
  { destruct (skipws s) as [|c1 r1]; [discriminate|]. destruct (c1 =? 93); [discriminate|].
    destruct (jarr n (c1 :: r1)) as [[? ?]|]; discriminate. }
  do 4 (match type of H with (if ?b then _ else _) = _ => destruct b end; [discriminate|]).
  destruct (x =? 45); apply jnum_int in H; destruct H as [[? H]|[? H]]; discriminate.
Qed.
Lemma json_loads_no_msg : forall s v, json_loads s = Ok v -> forall c d, v <> VMsg c d.
Proof.
  intros s v H. unfold json_loads in H. destruct s as [|c s]; [discriminate|]. destruct (c =? 65279); [discriminate|].
  destruct (jval _ _) as [[v' rest]|] eqn:E; [|discriminate]. destruct (skipws rest); [|discriminate].
  injection H as <-. eapply jval_no_msg. exact E.
Qed.
Lemma c111_json : forall C d t,
  (forall d', from_json C d t = (d', Ok tt) -> exists o, json_loads t = Ok (VDict o)) /\
  (forall v, json_loads t = Ok v -> (forall o, v <> VDict o) -> from_json C d t = (d, Err EAttributeError)) /\
  (forall e, json_loads t = Err e -> from_json C d t = (d, Err e)).
Proof.
  intros C d t. unfold from_json, from_json_gen, from_dict_gen. refine (conj _ (conj _ _)).
  - intros d' H. destruct (json_loads t) as [v|] eqn:E; [|discriminate].
    destruct v; try discriminate; eauto. exfalso. eapply json_loads_no_msg; [exact E|reflexivity].
  - intros v E H. rewrite E. destruct v; try reflexivity.
    + exfalso. eapply H. reflexivity.
    + exfalso. eapply json_loads_no_msg; [exact E|reflexivity].
  - intros e E. rewrite E. reflexivity.
Qed.

(** ** dispatch *)
Lemma ueqb_out : forall m k l, ~ In m l -> In k l -> ueqb m k = false.
Proof. intros m k l H Hk. apply ueqb_neq. intros ->. contradiction. Qed.
Lemma c110_unknown : forall C lax d info m, ~ In m [u "urlencoded"; u "dict"; u "json"; u "jwt"; u "jwe"] ->
  deserialize C d info m = (d, Err EFormatError) /\ serialize C lax d m = Err EAttributeError.
Proof.
  intros C lax d info m H. unfold deserialize, serialize.
  rewrite !(ueqb_out m _ _ H) by (cbn [In]; tauto). split; reflexivity.
Qed.
Lemma c110_jose : forall C lax d info,
  (forall m, In m [u "jwt"; u "jwe"] -> deserialize C d info m = (d, Err ETypeError)) /\ serialize C lax d (u "jwe") = Err ETypeError.
Proof. intros C lax d info. split; [|reflexivity]. intros m [<-|[<-|[]]]; reflexivity. Qed.
Lemma c110_round_trip : forall C lax d m, survives C lax d m -> covers_defaults C d ->
  exists x d', serialize C lax d m = Ok x /\ deserialize C (cd_default C) x m = (d', Ok tt) /\ forall k, dget d' k = dget d k.
Proof.
  intros C lax d m H Hd. destruct H as [H Hr|H|H].
  - destruct (url_round_trip C lax d H Hd Hr) as (t & d' & H1 & H2 & H3). exists (VStr t), d'.
    change (serialize C lax d (u "urlencoded")) with (do t <- to_urlencoded C lax d ; Ok (VStr t)). rewrite H1.
    refine (conj eq_refl (conj H2 H3)).
  - destruct (json_round_trip C d H Hd) as (t & d' & H1 & H2 & H3). exists (VStr t), d'.
    change (serialize C lax d (u "json")) with (do t <- to_json C d ; Ok (VStr t)). rewrite H1.
    refine (conj eq_refl (conj H2 H3)).
  - destruct (dict_round_trip C d H Hd) as (r & d' & H1 & H2 & H3). exists (VDict r), d'.
    change (serialize C lax d (u "dict")) with (do r <- to_dict C d ; Ok (VDict r)). rewrite H1.
    refine (conj eq_refl (conj H2 H3)).
Qed.

(** ** error responses *)
Lemma no_default_error : forall c, ~ In (u "error") (map fst (cd_default (cdef c))).
Proof. intro c. apply dget_None. destruct c; vm_compute; reflexivity. Qed.
Lemma c112_query : forall c q d, from_urlencoded (cdef c) (cd_default (cdef c)) q = (d, Ok tt) ->
  (is_error_message d = true <-> gives q (u "error")).
Proof.
  intros c q d H. apply c111_keys in H. destruct H as [_ H]. unfold is_error_message. rewrite dhas_In, (H (u "error")).
  pose proof (no_default_error c). tauto.
Qed.
Lemma error_spec : forall c, match param_spec (cd_param (cdef c)) (u "error") with Some s => p_typ s = TStr | None => True end.
Proof. intro c. destruct c; vm_compute; exact I || reflexivity. Qed.
Lemma c112_dict : forall c l d, NoDup (map fst l) -> from_dict (cdef c) (cd_default (cdef c)) (VDict l) = (d, Ok tt) ->
  (forall s, s <> [] -> dget l (u "error") = Some (VStr s) -> is_error_message d = true /\ dget d (u "error") = Some (VStr s)) /\
  (dget l (u "error") = None -> is_error_message d = false).
Proof.
  intros c l d Hn H. rewrite from_dict_VDict in H. pose proof (from_items_get _ _ _ _ _ (u "error") Hn H) as G.
  unfold is_error_message, dhas. rewrite G. pose proof (no_default_error c) as D. apply dget_None in D. split.
  - intros s Hs E. rewrite E, fd_entry_spec.
    replace (is_blank (VStr s)) with false by (destruct s; [congruence|reflexivity]).
    pose proof (error_spec c) as T. destruct (param_spec (cd_param (cdef c)) (u "error")) as [p|]; [|split; reflexivity].
    assert (A : add_val the_lib p (VStr s) = Ok (Some (VStr s))) by (unfold add_val; rewrite T; reflexivity).
    destruct (dget (cd_param (cdef c)) (u "error")), (dget (cd_param (cdef c)) (before_hash (u "error"))); rewrite A; split; reflexivity.
  - intro E. rewrite E, D. reflexivity.
Qed.
