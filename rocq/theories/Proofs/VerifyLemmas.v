(** Basic lemmas for the verify functions. *)
From Coq Require Import List NArith ZArith QArith Bool String Lia ZifyBool ZifyN.
From Verif Require Import Base.Ustr Base.UstrLemmas Model.Cls Model.Value Model.Pspec Model.Tables Model.Json
  Model.Message Model.Env Model.Verify Spec.MessageSpec Spec.VerifySpec
  Proofs.ValueLemmas Proofs.MessageLemmas Proofs.EncodeLemmas Proofs.Deciders.
Import ListNotations.
Open Scope list_scope.
Open Scope N_scope.

Lemma bind_ok : forall A B (r : res A) (f : A -> res B) x, bind r f = Ok x -> exists a, r = Ok a /\ f a = Ok x.
Proof. intros A B [a|e] f x H; cbn [bind] in H; [eauto|discriminate]. Qed.
Lemma bind_ok_iff : forall A B (r : res A) (f : A -> res B) x, bind r f = Ok x <-> exists a, r = Ok a /\ f a = Ok x.
Proof.
  intros A B r f x. split; [apply bind_ok|]. intros [a [-> H]]. exact H.
Qed.
Lemma bind_err : forall A B (r : res A) (f : A -> res B) e, bind r f = Err e ->
  r = Err e \/ exists a, r = Ok a /\ f a = Err e.
Proof. intros A B [a|e'] f e H; cbn [bind] in H; [eauto|]. left. inversion H. reflexivity. Qed.
Ltac bo H := let x := fresh "x" in let Hx := fresh "Hx" in apply bind_ok in H; destruct H as [x [Hx H]].

Lemma raise_if_ok : forall b e x, raise_if b e = Ok x <-> b = false /\ x = tt.
Proof. intros [|] e []; cbn; intuition (discriminate || reflexivity). Qed.
Lemma raise_if_err : forall b e e', raise_if b e = Err e' <-> b = true /\ e' = e.
Proof.
  intros [|] e e'; cbn; split; intro H.
  - inversion H; auto.
  - destruct H as [_ ->]; reflexivity.
  - discriminate.
  - destruct H; discriminate.
Qed.

Lemma py_ne_false : forall a b, py_ne a b = false <-> py_eq a b = true.
Proof. intros a b. unfold py_ne. rewrite negb_false_iff. reflexivity. Qed.

Lemma py_in_true : forall x c, py_in x c = Ok true <-> contains c x.
Proof.
  intros x c. destruct c; cbn [py_in contains]; try (split; [discriminate|intros []]).
  - destruct x as [| | | |p| | |]; try (split; [discriminate|intros [? [? [? [He _]]]]; discriminate]).
    split.
    + intro H. injection H as H1. apply substr_iff in H1. destruct H1 as [a [b H1]]. exists p, a, b. auto.
    + intros [p' [a [b [He Hs]]]]. inversion He; subst p'. f_equal. apply substr_iff. eauto.
  - split.
    + intro H. injection H as H1. apply existsb_exists in H1. exact H1.
    + intros H. f_equal. apply existsb_exists. exact H.
  - destruct x as [| | | |k| | |]; cbn [hashable];
      try (split; [discriminate|intros [? [He _]]; discriminate]).
    split.
    + intro H. injection H as H1. apply dhas_In in H1. eauto.
    + intros [k' [He Hk]]. inversion He; subst k'. f_equal. apply dhas_In. assumption.
  - destruct x as [| | | |k| | |]; cbn [hashable];
      try (split; [discriminate|intros [? [He _]]; discriminate]).
    split.
    + intro H. injection H as H1. apply dhas_In in H1. eauto.
    + intros [k' [He Hk]]. inversion He; subst k'. f_equal. apply dhas_In. assumption.
Qed.

Lemma not_in_false : forall x c, not_in x c = Ok false <-> contains c x.
Proof.
  intros x c. rewrite <- py_in_true. unfold not_in. destruct (py_in x c) as [[|]|e]; cbn; split; congruence.
Qed.

Lemma py_len_sized : forall v n, py_len v = Ok n <-> exists m, sized v m /\ n = N.of_nat m.
Proof.
  intros v n. split.
  - intro H. destruct v; cbn in H; try discriminate; inversion H; eexists; (split; [constructor|reflexivity]).
  - intros [m [Hs ->]]. destruct Hs; reflexivity.
Qed.
Lemma sized_fun : forall v a b, sized v a -> sized v b -> a = b.
Proof. intros v a b Ha Hb. destruct Ha; inversion Hb; reflexivity. Qed.

Lemma agree_ne : forall (a b : option value) e,
  match a, b with Some x, Some y => raise_if (py_ne x y) e | _, _ => Ok tt end = Ok tt <-> agree a b.
Proof.
  intros [x|] [y|] e; unfold agree.
  - rewrite raise_if_ok, py_ne_false. split.
    + intros [H _] x' y' Hx Hy. inversion Hx. inversion Hy. subst. assumption.
    + intro H. auto.
  - split; [discriminate|reflexivity].
  - split; [discriminate|reflexivity].
  - split; [discriminate|reflexivity].
Qed.
Lemma unit_ok : forall (r : res unit) x, r = Ok x <-> r = Ok tt.
Proof. intros r []. reflexivity. Qed.

(** ** responses *)
Lemma error_char_iff : forall c, error_char c = true <-> desc_char c.
Proof. intro c. unfold error_char, desc_char, is_alpha, is_upper, is_lower. lia. Qed.

Lemma all_error_chars_true : forall l, all_error_chars l = Ok true <->
  forall x, In x l -> exists c, x = VStr [c] /\ desc_char c.
Proof.
  induction l as [|x l IH].
  - split; [intros _ x []|reflexivity].
  - split.
    + intros H y Hy. cbn [all_error_chars] in H.
      destruct x as [| | | |s| | |]; cbn [hashable] in H; try discriminate.
      destruct s as [|c [|c' s]]; try discriminate.
      destruct (error_char c) eqn:Ec; [|discriminate].
      destruct Hy as [<-|Hy]; [exists c; split; [reflexivity|apply error_char_iff; assumption]|].
      apply IH; assumption.
    + intro H. destruct (H x (or_introl eq_refl)) as [c [-> Hc]]. cbn [all_error_chars].
      apply error_char_iff in Hc. rewrite Hc. apply IH. intros y Hy. apply H. right. assumption.
Qed.

Lemma desc_iter : forall v, (exists l, py_iter v = Ok l /\ all_error_chars l = Ok true) <-> desc_ok v.
Proof.
  intro v. destruct v; cbn [py_iter desc_ok]; try (split; [intros [l [H _]]; discriminate|intros []]).
  - split.
    + intros [l [H1 H2]] c Hc. inversion H1; subst l. rewrite all_error_chars_true in H2.
      destruct (H2 (VStr [c])) as [c' [He Hd]]; [apply in_map_iff; eauto|]. inversion He; subst. assumption.
    + intro H. eexists; split; [reflexivity|]. apply all_error_chars_true. intros x Hx.
      apply in_map_iff in Hx. destruct Hx as [c [<- Hc]]. eauto.
  - split.
    + intros [l' [H1 H2]]. inversion H1; subst l'. apply all_error_chars_true. assumption.
    + intro H. eexists; split; [reflexivity|]. apply all_error_chars_true. assumption.
  - split.
    + intros [l [H1 H2]] k Hk. inversion H1; subst l. rewrite all_error_chars_true in H2.
      apply in_map_iff in Hk. destruct Hk as [kv [<- Hk]].
      destruct (H2 (VStr (fst kv))) as [c [He Hd]]; [apply in_map_iff; eauto|]. inversion He as [He1]. eauto.
    + intro H. eexists; split; [reflexivity|]. apply all_error_chars_true. intros x Hx.
      apply in_map_iff in Hx. destruct Hx as [kv [<- Hk]].
      destruct (H (fst kv)) as [c [He Hd]]; [apply in_map; assumption|]. rewrite He. eauto.
  - split.
    + intros [l [H1 H2]] k Hk. inversion H1; subst l. rewrite all_error_chars_true in H2.
      apply in_map_iff in Hk. destruct Hk as [kv [<- Hk]].
      destruct (H2 (VStr (fst kv))) as [c' [He Hd]]; [apply in_map_iff; eauto|]. inversion He as [He1]. eauto.
    + intro H. eexists; split; [reflexivity|]. apply all_error_chars_true. intros x Hx.
      apply in_map_iff in Hx. destruct Hx as [kv [<- Hk]].
      destruct (H (fst kv)) as [c' [He Hd]]; [apply in_map; assumption|]. rewrite He. eauto.
Qed.

Lemma verify_base_true : forall C d b, verify_base C d = Ok b <-> table_ok C d /\ b = true.
Proof.
  intros C d b. unfold table_ok. rewrite <- verify_base_ok. split.
  - intro H. destruct b; [auto|]. destruct (c04 C d) as [_ [Hf _]]. congruence.
  - intros [H ->]. assumption.
Qed.

Lemma response_verify_ok : forall C d b, response_verify C d = Ok b <-> response_ok C d /\ b = true.
Proof.
  intros C d b. unfold response_verify, response_ok. rewrite bind_ok_iff. split.
  - intros [x [Hx H]]. apply verify_base_true in Hx. destruct Hx as [Ht _].
    destruct (dget d (u "error_description")) as [v|] eqn:E.
    + bo H. bo H. destruct x1; [|discriminate]. split; [|congruence]. split; [assumption|].
      intros v' Hv. inversion Hv; subst v'. apply desc_iter. eauto.
    + split; [|congruence]. split; [assumption|discriminate].
  - intros [[Ht Hd] ->]. exists true. split; [apply verify_base_true; auto|].
    destruct (dget d (u "error_description")) as [v|] eqn:E; [|reflexivity].
    specialize (Hd v eq_refl). apply desc_iter in Hd. destruct Hd as [l [-> Hl]]. cbn [bind]. rewrite Hl. reflexivity.
Qed.

Lemma c24 : forall C d s, table_ok C d -> dget d (u "error_description") = Some (VStr s) ->
  (response_verify C d = Err EValueError <-> exists c, In c s /\ ~ desc_char c) /\
  (response_verify C d = Ok true <-> forall c, In c s -> desc_char c).
Proof.
  intros C d s Ht Hs. unfold response_verify.
  assert (Hb : verify_base C d = Ok true) by (apply verify_base_true; auto).
  rewrite Hb, Hs. cbn [bind py_iter].
  assert (G : forall s, (all_error_chars (map (fun c => VStr [c]) s) = Ok true /\ (forall c, In c s -> desc_char c)) \/
                        (all_error_chars (map (fun c => VStr [c]) s) = Ok false /\ exists c, In c s /\ ~ desc_char c)).
  { induction s0 as [|c s0 IH]; [left; split; [reflexivity|intros c []]|].
    cbn [map all_error_chars hashable]. destruct (error_char c) eqn:Ec.
    - apply error_char_iff in Ec. destruct IH as [[H1 H2]|[H1 [c' [H2 H3]]]].
      + left. split; [assumption|]. intros c' [<-|H]; auto.
      + right. split; [assumption|]. exists c'. split; [right|]; assumption.
    - right. split; [reflexivity|]. exists c. split; [left; reflexivity|]. rewrite <- error_char_iff. congruence. }
  destruct (G s) as [[-> H2]|[-> [c [H2 H3]]]]; cbn [bind].
  - split; split; try discriminate; auto. intros [c [Hc Hn]]. exfalso. auto.
  - split; split; try discriminate; eauto. intro H. exfalso. auto.
Qed.

Lemma c24_absent : forall C d, table_ok C d -> dget d (u "error_description") = None -> response_verify C d = Ok true.
Proof. intros C d Ht Hn. apply response_verify_ok. split; [|reflexivity]. split; [assumption|]. congruence. Qed.

Lemma authz_response_ok : forall K C d b, authz_response_verify K C d = Ok b <->
  (response_ok C d /\ agree (dget d (u "client_id")) (kget K (u "client_id")) /\
   agree (dget d (u "iss")) (kget K (u "iss"))) /\ b = true.
Proof.
  intros K C d b. unfold authz_response_verify. rewrite bind_ok_iff. split.
  - intros [x [Hx H]]. apply response_verify_ok in Hx. bo H. bo H.
    apply unit_ok in Hx0. apply unit_ok in Hx1.
    split; [|congruence]. split; [tauto|].
    rewrite <- (agree_ne _ _ EVerificationError). rewrite <- (agree_ne _ _ EVerificationError).
    split; assumption.
  - intros [[H1 [H2 H3]] ->]. exists true. split; [apply response_verify_ok; auto|].
    rewrite <- (agree_ne _ _ EVerificationError) in H2. rewrite <- (agree_ne _ _ EVerificationError) in H3.
    unfold raise_if in H2, H3. rewrite H2. cbn [bind]. rewrite H3. reflexivity.
Qed.

(** ** merge *)
Lemma merge_strict : forall d ro k, NoDup (map fst ro) -> dget (merge d ro Strict) k = dget ro k.
Proof.
  intros d ro k Hn. unfold merge. rewrite dget_dupdate by assumption.
  destruct (dget ro k) as [v|] eqn:E; [reflexivity|].
  rewrite (dget_filter (fun k => dhas ro k)). apply dhas_false in E. rewrite E. reflexivity.
Qed.
Lemma merge_lax : forall d ro k, NoDup (map fst ro) ->
  dget (merge d ro Lax) k = match dget ro k with Some v => Some v | None => dget d k end.
Proof. intros d ro k Hn. unfold merge. rewrite dget_dupdate by assumption. reflexivity. Qed.
Lemma merge_whitelist : forall d ro l k, NoDup (map fst ro) -> l <> [] ->
  dget (merge d ro (Whitelist l)) k =
  match dget ro k with Some v => Some v | None => if umem k l then dget d k else None end.
Proof.
  intros d ro l k Hn Hl. unfold merge. destruct l as [|a l]; [congruence|].
  rewrite dget_dupdate by assumption. destruct (dget ro k); [reflexivity|].
  rewrite (dget_filter (fun k => umem k (a :: l))). reflexivity.
Qed.

(** ** decoding *)
Lemma from_items_nodup : forall L P l d, NoDup (map fst d) -> NoDup (map fst (fst (from_items L P d l))).
Proof.
  intros L P. induction l as [|[k v] l IH]; intros d Hd; [exact Hd|].
  cbn [from_items]. destruct (fd_entry L P k v) as [[x|]|e]; [|apply IH; assumption|exact Hd].
  apply IH. apply dset_nodup. assumption.
Qed.
Lemma from_dict_nodup : forall C v d d' r, NoDup (map fst d) -> from_dict C d v = (d', r) -> NoDup (map fst d').
Proof.
  intros C v d d' r Hd H. unfold from_dict, from_dict_gen in H.
  destruct (items v) as [l|e].
  - pose proof (from_items_nodup the_lib (cd_param C) l d Hd) as G. rewrite H in G. exact G.
  - inversion H; subst. assumption.
Qed.
Lemma lib_defaults_nodup : forall c, NoDup (map fst (cd_default (cdef c))).
Proof.
  intro c. destruct c; cbn [cdef]; apply nodupb_ok; vm_compute; reflexivity.
Qed.
