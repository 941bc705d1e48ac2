(** Lemmas on identity_assurance.py. *)
From Coq Require Import List NArith ZArith QArith Bool String Lia.
From Verif Require Import Base.Ustr Base.UstrLemmas Model.Cls Model.Value Model.Pspec Model.Tables Model.Message Model.Env
  Model.IdentityAssurance Model.Verify Spec.VerifySpec Spec.IdaSpec Proofs.ValueLemmas Proofs.MessageLemmas Proofs.VerifyLemmas.
Import ListNotations.
Open Scope list_scope.
Open Scope N_scope.

(** ** the value of a claim *)
Lemma boolish_iff : forall v, existsb (py_eq v) [VNone; VBool true; VBool false] = true <-> boolish v.
Proof.
  intro v. unfold boolish. cbn [existsb]. rewrite !orb_true_iff. split.
  - intros [H|[H|[H|H]]]; try discriminate; destruct v as [|b|z|q|s|l|d|c d]; try discriminate; eauto.
    + right. right. right. left. apply Qeq_bool_eq in H. unfold inject_Z, Qeq in H. cbn in H. f_equal. lia.
    + right. right. right. right. exists q. split; [reflexivity|]. right. apply Qeq_bool_eq in H. exact H.
    + right. right. left. apply Qeq_bool_eq in H. unfold inject_Z, Qeq in H. cbn in H. f_equal. lia.
    + right. right. right. right. exists q. split; [reflexivity|]. left. apply Qeq_bool_eq in H. exact H.
  - intros [->|[[[] ->]|[->|[->|[q [-> H]]]]]]; auto.
    destruct H as [H|H]; [right; right; left|right; left]; apply Qeq_eq_bool; exact H.
Qed.

Lemma isinstance_iff : forall t v, simple t -> (isinstance v t = true <-> of_type t v).
Proof.
  intros t v [->|[->| ->]]; destruct v; cbn [isinstance of_type]; split; intro H; try reflexivity; try discriminate; eauto;
  try (destruct H as [? H]; discriminate).
  all: destruct H as [[? H]|[? H]]; discriminate.
Qed.
Lemma correct_iff : forall t v, simple t -> correct_value_type v t = Ok (isinstance v t).
Proof. intros t v [->|[->| ->]]; reflexivity. Qed.
Lemma all_types_iff : forall t l, simple t ->
  exists b, all_types t l = Ok b /\ (b = true <-> forall y, In y l -> of_type t y).
Proof.
  intros t l Ht. induction l as [|x l (b & E & IH)].
  - exists true. split; [reflexivity|]. split; [intros _ y []|reflexivity].
  - cbn [all_types]. rewrite (correct_iff t x Ht). cbn [bind]. destruct (isinstance x t) eqn:Ex.
    + exists b. split; [exact E|]. rewrite IH. split; [|intros H y Hy; apply H; right; exact Hy].
      intros H y [<-|Hy]; [apply isinstance_iff; assumption|apply H; exact Hy].
    + exists false. split; [reflexivity|]. split; [discriminate|]. intro H. specialize (H x (or_introl eq_refl)).
      apply isinstance_iff in H; [congruence|assumption].
Qed.
Lemma elements_iff : forall v l, py_iter v = Ok l <-> elements v l.
Proof. intros v l. destruct v; cbn [py_iter elements]; split; intro H; try discriminate; try contradiction; congruence. Qed.

Lemma purpose_iff : forall p, (purpose_ok p = Ok true <->
  (truthy p = true -> desc_ok p /\ exists n, sized p n /\ (3 <= n <= 300)%nat)) /\
  forall e, purpose_ok p = Err e -> e = ETypeError.
Proof.
  intro p. unfold purpose_ok. destruct (truthy p) eqn:Et; [|split; [split; [discriminate|reflexivity]|discriminate]].
  assert (Hc : forall l e, all_error_chars l = Err e -> e = ETypeError).
  { induction l as [|x l IH]; [discriminate|]. intros e. cbn [all_error_chars].
    assert (D : (if hashable x then Ok false else Err ETypeError) = @Err bool e -> e = ETypeError)
      by (destruct (hashable x); congruence).
    destruct x as [| | | |s| | |]; try exact D. destruct s as [|a [|]]; try exact D. destruct (error_char a); [apply IH|discriminate]. }
  split.
  - split.
    + intros H _. destruct (py_len p) as [n|] eqn:En; [|discriminate]. cbn [bind] in H.
      apply py_len_sized in En. destruct En as (m & Hm & ->).
      destruct ((N.of_nat m <? 3) || (300 <? N.of_nat m)) eqn:Eb; [discriminate|].
      destruct (py_iter p) as [xs|] eqn:Ei; [|discriminate]. cbn [bind] in H. split; [apply desc_iter; eauto|]. exists m. split; [exact Hm|lia].
    + intro H. destruct (H eq_refl) as (H1 & n & H2 & H3). assert (En : py_len p = Ok (N.of_nat n)) by (apply py_len_sized; eauto).
      rewrite En. cbn [bind]. replace (N.of_nat n <? 3) with false by lia. replace (300 <? N.of_nat n) with false by lia. cbn [orb].
      apply desc_iter in H1. destruct H1 as (l & -> & H1). exact H1.
  - intros e H. destruct (py_len p) as [n|e'] eqn:En; cbn [bind] in H.
    + destruct ((n <? 3) || (300 <? n)); [discriminate|]. destruct (py_iter p) as [xs|e'] eqn:Ei; cbn [bind] in H; [exact (Hc _ _ H)|].
      destruct p; cbn in Ei; congruence.
    + destruct p; cbn in En; congruence.
Qed.

Lemma get_spec : forall (d : dict value) k x, get d k x = match dget d k with Some v => v | None => x end.
Proof. reflexivity. Qed.

Lemma value_iff : forall t v, simple t -> (claims_value v t = Ok true <-> value_ok t v) /\
  forall e, claims_value v t = Err e -> e = ETypeError.
Proof.
  intros t v Ht.
  assert (D : forall w, (forall d, w <> VDict d) -> claims_value w t = Ok true -> (claims_value w t = Ok true <-> value_ok t w) /\
    forall e, claims_value w t = Err e -> e = ETypeError).
  { intros w Hw E. split; [split; [intros _ d ->; destruct (Hw d eq_refl)|auto]|congruence]. }
  destruct v as [|b|z|q|s|l|d|c d]; try (apply D; [discriminate|reflexivity]). clear D.
  unfold claims_value. set (e := get d (u "essential") VNone). set (x := get d (u "value") VNone).
  set (vs := get d (u "values") (VList [])). set (p := get d (u "purpose") VNone).
  destruct (purpose_iff p) as [Hp Hpe].
  assert (He : boolish e <-> forall y, dget d (u "essential") = Some y -> boolish y).
  { unfold e. rewrite get_spec. destruct (dget d (u "essential")); split; intro H; auto.
    - intros y Hy. injection Hy as <-. exact H.
    - intros y Hy. discriminate.
    - left. reflexivity. }
  assert (Hx : (truthy x = true -> of_type t x) <-> forall y, dget d (u "value") = Some y -> truthy y = true -> of_type t y).
  { unfold x. rewrite get_spec. destruct (dget d (u "value")); split; intro H; auto; try discriminate.
    intros y Hy. injection Hy as <-. exact H. }
  assert (Hv : (exists l, elements vs l /\ forall y, In y l -> of_type t y) <->
    forall y, dget d (u "values") = Some y -> exists l, elements y l /\ forall y, In y l -> of_type t y).
  { unfold vs. rewrite get_spec. destruct (dget d (u "values")); split; intro H; auto; try discriminate.
    - intros y Hy. injection Hy as <-. exact H.
    - exists []. split; [reflexivity|intros y []]. }
  assert (Hq : (truthy p = true -> desc_ok p /\ exists n, sized p n /\ (3 <= n <= 300)%nat) <->
    forall y, dget d (u "purpose") = Some y -> truthy y = true -> desc_ok y /\ exists n, sized y n /\ (3 <= n <= 300)%nat).
  { unfold p. rewrite get_spec. destruct (dget d (u "purpose")); split; intro H; auto; try discriminate.
    intros y Hy. injection Hy as <-. exact H. }
  assert (Hok : value_ok t (VDict d) <-> boolish e /\ (truthy x = true -> of_type t x) /\
    (exists l, elements vs l /\ forall y, In y l -> of_type t y) /\ purpose_ok p = Ok true).
  { rewrite He, Hx, Hv, Hp, Hq. split.
    - intro H. destruct (H d eq_refl) as [A B C D]. split; [exact A|]. split; [exact B|]. split; [exact C|exact D].
    - intros (A & B & C & D) d' E. injection E as <-. constructor; assumption. }
  rewrite Hok. clear Hok He Hx Hv Hq Hp. clearbody e x vs p.
  destruct (existsb (py_eq e) [VNone; VBool true; VBool false]) eqn:Ee; cbn [negb].
  2: { split; [|discriminate]. split; [discriminate|]. intros [H _]. apply boolish_iff in H. congruence. }
  apply boolish_iff in Ee.
  assert (Hb : exists b, (if truthy x then correct_value_type x t else Ok true) = Ok b /\ (b = true <-> (truthy x = true -> of_type t x))).
  { destruct (truthy x); [|exists true; split; [reflexivity|]; split; [discriminate|reflexivity]].
    rewrite (correct_iff t x Ht). exists (isinstance x t). split; [reflexivity|]. rewrite (isinstance_iff t x Ht). tauto. }
  destruct Hb as (b & -> & Hb). cbn [bind]. destruct b; cbn [negb].
  2: { split; [|discriminate]. split; [discriminate|]. intros (_ & H & _). apply Hb in H. discriminate. }
  pose proof (proj1 Hb eq_refl) as Hb'. destruct (py_iter vs) as [l|e'] eqn:El; cbn [bind].
  2: { split; [|intros e0 H0; injection H0 as <-; destruct vs; cbn in El; congruence]. split; [discriminate|].
       intros (_ & _ & (l & H & _) & _). apply elements_iff in H. congruence. }
  destruct (all_types_iff t l Ht) as (b & -> & Ha). cbn [bind]. destruct b.
  - split; [|exact Hpe]. split; [|intros (_ & _ & _ & H); exact H]. intro H. split; [exact Ee|]. split; [exact Hb'|].
    split; [|exact H]. exists l. split; [apply elements_iff; exact El|apply Ha; reflexivity].
  - split; [|discriminate]. split; [discriminate|]. intros (_ & _ & (l' & H & H') & _). apply elements_iff in H.
    assert (l' = l) by congruence. subst l'. apply Ha in H'. discriminate.
Qed.
Lemma check_value_iff : forall t v, simple t -> (claims_value_check v t = Ok tt <-> value_ok t v) /\
  forall e, claims_value_check v t = Err e -> e = EValueError \/ e = ETypeError.
Proof.
  intros t v Ht. destruct (value_iff t v Ht) as [H1 H2]. unfold claims_value_check.
  destruct (claims_value v t) as [b|e]; cbn [bind].
  - destruct b; [split; [tauto|discriminate]|]. split; [|intros e H; left; congruence]. rewrite <- H1. split; discriminate.
  - split; [rewrite <- H1; split; discriminate|]. intros e0 H. right. injection H as <-. apply H2. reflexivity.
Qed.

(** ** verify_claims_request *)
Lemma check_params_iff : forall fs P, (check_params fs P = Ok tt <->
  forall k s f, In (k, s) P -> dget fs k = Some f -> f (p_typ s) = Ok tt) /\
  forall e, check_params fs P = Err e -> exists k s f, In (k, s) P /\ dget fs k = Some f /\ f (p_typ s) = Err e.
Proof.
  intros fs P. induction P as [|[k s] P [IH1 IH2]]; cbn [check_params].
  - split; [split; [intros _ k s f []|reflexivity]|discriminate].
  - destruct (dget fs k) as [f|] eqn:Ef.
    + destruct (f (p_typ s)) as [[]|e] eqn:E; cbn [bind].
      * split.
        -- rewrite IH1. split; [|intros H k' s' f' Hin; apply H; right; exact Hin].
           intros H k' s' f' [Heq|Hin] Hf; [injection Heq as <- <-; congruence|eauto].
        -- intros e H. destruct (IH2 e H) as (k' & s' & f' & H1 & H2). exists k', s', f'. split; [right; exact H1|exact H2].
      * split; [split; [discriminate|]|].
        -- intro H. specialize (H k s f (or_introl eq_refl) Ef). congruence.
        -- intros e' H. injection H as <-. exists k, s, f. split; [left; reflexivity|]. auto.
    + split.
      * rewrite IH1. split; [|intros H k' s' f' Hin; apply H; right; exact Hin].
        intros H k' s' f' [Heq|Hin] Hf; [injection Heq as <- <-; congruence|eauto].
      * intros e H. destruct (IH2 e H) as (k' & s' & f' & H1 & H2). exists k', s', f'. split; [right; exact H1|exact H2].
Qed.
Lemma dget_map : forall A B (g : A -> B) (d : dict A) k, dget (map (fun kv => (fst kv, g (snd kv))) d) k = option_map g (dget d k).
Proof.
  intros A B g d k. induction d as [|[k' x] d IH]; [reflexivity|]. cbn [map dget fst snd]. destruct (ueqb k k'); [reflexivity|exact IH].
Qed.

Definition vgood (r : res unit) (P : Prop) : Prop := (r = Ok tt <-> P) /\ forall e, r = Err e -> e = EValueError \/ e = ETypeError.
Lemma vgood_ok : forall P : Prop, P -> vgood (Ok tt) P.
Proof. intros P H. split; [tauto|discriminate]. Qed.
Lemma vgood_te : forall P : Prop, ~ P -> vgood (Err ETypeError) P.
Proof. intros P H. split; [split; [discriminate|tauto]|]. intros e E. right. congruence. Qed.
Lemma vgood_iff : forall r (P Q : Prop), (P <-> Q) -> vgood r P -> vgood r Q.
Proof. intros r P Q H [H1 H2]. split; [rewrite H1; exact H|exact H2]. Qed.
Lemma vgood_mapM : forall A (f : A -> res unit) (P : A -> Prop) l, (forall x, In x l -> vgood (f x) (P x)) ->
  vgood (do _ <- mapM f l ; Ok tt) (forall x, In x l -> P x).
Proof.
  intros A f P l H. destruct (mapM f l) as [r|e] eqn:E; cbn [bind].
  - apply vgood_ok. intros x Hx. apply (proj1 (H x Hx)). assert (G : exists r, mapM f l = Ok r) by eauto.
    rewrite mapM_ok_iff in G. destruct (G x Hx) as [[] G']. exact G'.
  - apply mapM_err in E. destruct E as (x & Hx & Ex). destruct (H x Hx) as [H1 H2]. split.
    + split; [discriminate|]. intro G. specialize (G x Hx). apply H1 in G. congruence.
    + intros e' H'. injection H' as <-. exact (H2 e Ex).
Qed.

Lemma value_eq_none : forall v : value, v = VNone \/ v <> VNone.
Proof. intros []; auto; right; discriminate. Qed.
Lemma simple_dec : forall t, simple t \/ ~ simple t.
Proof. intros []; unfold simple; (left; auto; fail) || (right; intros [H|[H|H]]; discriminate). Qed.

Lemma text_request : forall c s, vgood (match cd_param (cdef c) with [] => Ok tt | _ => Err ETypeError end) (request_ok c (VStr s)).
Proof.
  intros c s. destruct (cd_param (cdef c)) eqn:E; [apply vgood_ok, RqAny, E|]. apply vgood_te. intro H. inversion H; subst; [|congruence].
  destruct H0 as [?|[? ?]]; discriminate.
Qed.

Lemma elem_good : forall rec t v, (forall c, v <> VNone -> vgood (rec v c) (request_ok c v)) -> vgood (check_elem rec t v) (elem_ok t v).
Proof.
  intros rec t v H. destruct (simple_dec t) as [Ht|Ht].
  - assert (E : check_elem rec t v = claims_value_check v t) by (destruct Ht as [->|[->| ->]]; reflexivity).
    rewrite E. eapply vgood_iff; [|exact (check_value_iff t v Ht)]. split; [apply ESimple; exact Ht|].
    intro G. inversion G; subst; auto; try (destruct Ht as [Ht|[Ht|Ht]]; discriminate); try (intros d E'; discriminate).
  - destruct t as [| | | |c|t]; try (exfalso; apply Ht; unfold simple; auto; fail); cbn [check_elem].
    + apply vgood_ok, EDict.
    + destruct (value_eq_none v) as [->|Hv]; [apply vgood_ok, ENone|].
      assert (E : (match v with VNone => Ok tt | _ => rec v c end) = rec v c) by (destruct v; congruence).
      rewrite E. eapply vgood_iff; [|exact (H c Hv)]. split; [apply EMsg|]. intro G. inversion G; subst; auto; try congruence;
      match goal with H0 : simple _ |- _ => destruct H0 as [?|[?|?]]; discriminate end.
    + apply vgood_ok, EList.
Qed.
Lemma member_good : forall rec v t,
  (forall c, v <> VNone -> vgood (rec v c) (request_ok c v)) ->
  (forall l x, v = VList l -> In x l -> forall c, vgood (rec x c) (request_ok c x)) ->
  vgood (check_member rec v t) (member_ok t v).
Proof.
  intros rec v t H Hl. destruct (simple_dec t) as [Ht|Ht].
  - assert (E : check_member rec v t = claims_value_check v t) by (destruct Ht as [->|[->| ->]]; reflexivity).
    rewrite E. eapply vgood_iff; [|exact (check_value_iff t v Ht)]. split; [apply MSimple; exact Ht|].
    intro G. inversion G; subst; auto; try (destruct Ht as [Ht|[Ht|Ht]]; discriminate); try (intros d E'; discriminate).
  - destruct t as [| | | |c|t]; try (exfalso; apply Ht; unfold simple; auto; fail); cbn [check_member].
    + apply vgood_ok, MDict.
    + destruct (value_eq_none v) as [->|Hv]; [apply vgood_ok, MNone|].
      assert (E : (match v with VNone => Ok tt | _ => rec v c end) = rec v c) by (destruct v; congruence).
      rewrite E. eapply vgood_iff; [|exact (H c Hv)]. split; [apply MMsg|]. intro G. inversion G; subst; auto; try congruence;
      match goal with H0 : simple _ |- _ => destruct H0 as [?|[?|?]]; discriminate end.
    + assert (Nm : forall w, w <> VNone -> (forall l, ~ elements w l) -> ~ member_ok (TList t) w).
      { intros w Hw He G. inversion G; subst; try congruence; try (eapply He; eassumption);
        match goal with H0 : simple _ |- _ => destruct H0 as [?|[?|?]]; discriminate end. }
      assert (M : forall w l, w <> VNone -> elements w l -> ((forall x, In x l -> elem_ok t x) <-> member_ok (TList t) w)).
      { intros w l Hw He. split; [intro G; exact (MList t w l He G)|]. intro G. inversion G; subst; try congruence;
          try (match goal with H0 : simple _ |- _ => destruct H0 as [?|[?|?]]; discriminate end).
        match goal with H0 : elements w ?l0 |- _ => assert (l0 = l); [|subst; assumption]; clear - H0 He end.
        destruct w; cbn [elements] in *; try contradiction; congruence. }
      destruct v as [|b|z|q|s|l|d|c' d]; try (apply vgood_te, Nm; [discriminate|intros ? []]).
      * apply vgood_ok, MNone.
      * eapply vgood_iff; [apply (M (VStr s) (map (fun c => VStr [c]) s)); [discriminate|reflexivity]|].
        eapply vgood_iff; [|apply (vgood_mapM N _ (fun a => elem_ok t (VStr [a])))].
        -- split; [intros G x Hx; apply in_map_iff in Hx; destruct Hx as (a & <- & Ha); exact (G a Ha)|].
           intros G a Ha. apply G. apply in_map_iff. exists a. split; [reflexivity|exact Ha].
        -- intros a _. apply elem_good. intros c _. apply text_request.
      * eapply vgood_iff; [apply (M (VList l) l); [discriminate|reflexivity]|]. apply vgood_mapM. intros x Hx. apply elem_good.
        intros c _. exact (Hl l x eq_refl Hx c).
      * eapply vgood_iff; [apply (M (VDict d) (map (fun kv => VStr (fst kv)) d)); [discriminate|reflexivity]|].
        eapply vgood_iff; [|apply (vgood_mapM (ustr * value) _ (fun kv => elem_ok t (VStr (fst kv))))].
        -- split; [intros G x Hx; apply in_map_iff in Hx; destruct Hx as (a & <- & Ha); exact (G a Ha)|].
           intros G a Ha. apply G. apply in_map_iff. exists a. split; [reflexivity|exact Ha].
        -- intros a _. apply elem_good. intros c _. apply text_request.
      * eapply vgood_iff; [apply (M (VMsg c' d) (map (fun kv => VStr (fst kv)) d)); [discriminate|reflexivity]|].
        eapply vgood_iff; [|apply (vgood_mapM (ustr * value) _ (fun kv => elem_ok t (VStr (fst kv))))].
        -- split; [intros G x Hx; apply in_map_iff in Hx; destruct Hx as (a & <- & Ha); exact (G a Ha)|].
           intros G a Ha. apply G. apply in_map_iff. exists a. split; [reflexivity|exact Ha].
        -- intros a _. apply elem_good. intros c _. apply text_request.
Qed.

Lemma request_map : forall v d c, mapping v d ->
  verify_claims_request v c =
  check_params (map (fun kv => (fst kv, check_member verify_claims_request (snd kv))) d) (cd_param (cdef c)).
Proof. intros v d c [->|[c' ->]]; reflexivity. Qed.
Lemma request_good_map : forall v d, mapping v d ->
  (forall k x, dget d k = Some x -> forall t, vgood (check_member verify_claims_request x t) (member_ok t x)) ->
  forall c, vgood (verify_claims_request v c) (request_ok c v).
Proof.
  intros v d Hm IH c. rewrite (request_map v d c Hm).
  destruct (check_params_iff (map (fun kv => (fst kv, check_member verify_claims_request (snd kv))) d) (cd_param (cdef c))) as [H1 H2].
  split.
  - rewrite H1. split.
    + intro H. apply (RqMap c v d Hm). intros k s x Hin Hx. apply (proj1 (IH k x Hx (p_typ s))).
      apply (H k s _ Hin). rewrite (dget_map _ _ (check_member verify_claims_request)), Hx. reflexivity.
    + intros H k s f Hin Hf. rewrite (dget_map _ _ (check_member verify_claims_request)) in Hf.
      destruct (dget d k) as [x|] eqn:Ex; [|discriminate]. injection Hf as <-. apply (proj1 (IH k x Ex (p_typ s))).
      inversion H; subst.
      * assert (d0 = d) by (destruct Hm as [->|[? ->]]; destruct H0 as [E|[? E]]; congruence). subst d0. eauto.
      * rewrite H0 in Hin. destruct Hin.
  - intros e H. destruct (H2 e H) as (k & s & f & Hin & Hf & E).
    rewrite (dget_map _ _ (check_member verify_claims_request)) in Hf.
    destruct (dget d k) as [x|] eqn:Ex; [|discriminate]. injection Hf as <-. exact (proj2 (IH k x Ex (p_typ s)) e E).
Qed.
Lemma dget_in_forall : forall (P : value -> Prop) (d : dict value) k x, Forall (fun kv => P (snd kv)) d -> dget d k = Some x -> P x.
Proof.
  intros P d k x H. induction H as [|[k' y] d Hy H IH]; [discriminate|]. cbn [dget]. destruct (ueqb k k'); [|exact IH].
  intro E. injection E as <-. exact Hy.
Qed.
Lemma other_request : forall c v, (forall d, ~ mapping v d) ->
  vgood (match cd_param (cdef c) with [] => Ok tt | _ => Err ETypeError end) (request_ok c v).
Proof.
  intros c v Hv. destruct (cd_param (cdef c)) eqn:E; [apply vgood_ok, RqAny, E|]. apply vgood_te. intro H. inversion H; subst; [|congruence].
  eapply Hv; eassumption.
Qed.
Theorem request_good : forall v c, vgood (verify_claims_request v c) (request_ok c v).
Proof.
  intro v.
  assert (G : (forall c, vgood (verify_claims_request v c) (request_ok c v)) /\
              forall l x, v = VList l -> In x l -> forall c, vgood (verify_claims_request x c) (request_ok c x)).
  { induction v as [|b|z|q|s|l IH|d IH|c0 d IH] using value_ind'.
    1-5: split; [intro c; apply other_request; intros ? [?|[? ?]]; discriminate|discriminate].
    - split; [intro c; apply other_request; intros ? [?|[? ?]]; discriminate|].
      intros l' x E Hx. injection E as <-. rewrite Forall_forall in IH. exact (proj1 (IH x Hx)).
    - split; [|discriminate]. apply (request_good_map (VDict d) d); [left; reflexivity|]. intros k x Hx t.
      pose proof (dget_in_forall (fun v => (forall c, vgood (verify_claims_request v c) (request_ok c v)) /\
        forall l x, v = VList l -> In x l -> forall c, vgood (verify_claims_request x c) (request_ok c x)) d k x IH Hx) as [G1 G2].
      apply member_good; auto.
    - split; [|discriminate]. apply (request_good_map (VMsg c0 d) d); [right; eauto|]. intros k x Hx t.
      pose proof (dget_in_forall (fun v => (forall c, vgood (verify_claims_request v c) (request_ok c v)) /\
        forall l x, v = VList l -> In x l -> forall c, vgood (verify_claims_request x c) (request_ok c x)) d k x IH Hx) as [G1 G2].
      apply member_good; auto. }
  exact (proj1 G).
Qed.

(** ** Evidence *)
Lemma evidence_never : forall fuel c d, exists e, snd (evidence_verify fuel c d) = Err e.
Proof.
  induction fuel as [|fuel IH]; intros c d; [exists OutOfFuel; reflexivity|]. cbn [evidence_verify].
  assert (R : forall c', exists e, (do kws <- to_dict (cdef c) d ; do m <- construct (cdef c') kws ; snd (evidence_verify fuel c' m)) = Err e).
  { intro c'. destruct (to_dict (cdef c) d) as [kws|e]; cbn [bind]; [|eauto].
    destruct (construct (cdef c') kws) as [m|e]; cbn [bind]; [apply IH|eauto]. }
  destruct (truthy (get d (u "type") VNone)).
  - destruct (List.find _ evidence_types) as [[n c']|]; [|cbn [snd]; eauto]. destruct (R c') as [e ->]. cbn [bind snd]. eauto.
  - destruct (List.find _ evidence_types) as [[n c']|]; [|cbn [snd]; eauto]. destruct (R c') as [e ->]. cbn [snd]. eauto.
Qed.
Lemma evidence_unknown : forall fuel c d t, dget d (u "type") = Some (VStr t) ->
  ~ In t [u "id_document"; u "utility_bill"; u "qes"] -> t <> [] ->
  evidence_verify (S fuel) c d = (d, Err EValueError).
Proof.
  intros fuel c d t Ht Hn Hne. cbn [evidence_verify]. rewrite get_spec, Ht. replace (truthy (VStr t)) with true by (destruct t; [congruence|reflexivity]).
  cbn [List.find evidence_types fst]. change (py_eq (VStr t)) with (fun w => match w with VStr s => ueqb t s | _ => false end). cbv beta iota.
  assert (E : forall x, In x [u "id_document"; u "utility_bill"; u "qes"] -> ueqb t x = false).
  { intros x Hx. destruct (ueqb t x) eqn:E; [|reflexivity]. apply ueqb_eq in E. subst. contradiction. }
  rewrite !E; [reflexivity|right; right; left; reflexivity|right; left; reflexivity|left; reflexivity].
Qed.
Lemma evidence_untyped : forall fuel c d, dget d (u "type") = None -> evidence_verify (S fuel) c d = (d, Err EValueError).
Proof.
  intros fuel c d Hd. cbn [evidence_verify]. rewrite get_spec, Hd. cbn [truthy].
  assert (Hk : dhas d (u "type") = false) by (unfold dhas; rewrite Hd; reflexivity).
  assert (E : forall e, In e evidence_types -> forallb (fun k => dhas d k) (dkeys (cd_param (cdef (snd e)))) = false).
  { intros e He. destruct (forallb _ _) eqn:E; [|reflexivity]. exfalso. rewrite forallb_forall in E.
    rewrite (E (u "type")) in Hk; [discriminate|]. cbn [In evidence_types] in He.
    destruct He as [<-|[<-|[<-|[]]]]; vm_compute; auto 20. }
  cbn [List.find evidence_types]. rewrite !E; [reflexivity|right; right; left; reflexivity|right; left; reflexivity|left; reflexivity].
Qed.

(** ** IDAClaimsRequest *)
Lemma ida_request : forall d d' b, ida_claims_verify (cdef C_ida_IDAClaimsRequest) d = (d', Ok b) ->
  (forall k, k <> u "verified_claims" -> dget d' k = dget d k) /\
  forall vc, dget d (u "verified_claims") = Some vc -> truthy vc = true ->
  exists kws m, mapping vc kws /\ construct (cdef C_ida_VerifiedClaimsRequest) kws = Ok m /\
    dget d' (u "verified_claims") = Some (VMsg C_ida_VerifiedClaimsRequest m) /\ request_ok C_ida_VerifiedClaims (VDict m).
Proof.
  intros d d' b. unfold ida_claims_verify. destruct (verify_base _ d) as [b0|]; [|discriminate].
  rewrite get_spec. destruct (dget d (u "verified_claims")) as [vc|] eqn:Ev.
  2: { cbn [truthy]. intro H. injection H as <- <-. split; [reflexivity|discriminate]. }
  destruct (truthy vc) eqn:Et.
  2: { intro H. injection H as <- <-. split; [reflexivity|]. intros vc' E. injection E as <-. congruence. }
  assert (G : forall kws m, construct (cdef C_ida_VerifiedClaimsRequest) kws = Ok m ->
    mapping vc kws -> match request_verify (cdef C_ida_VerifiedClaimsRequest) C_ida_VerifiedClaims m with
        | Err e => (d, @Err bool e)
        | Ok _ =>
            match setitem (cdef C_ida_IDAClaimsRequest) d (u "verified_claims") (VMsg C_ida_VerifiedClaimsRequest m) with
            | (d', Ok _) => (d', Ok false)
            | (d', Err e) => (d', Err e)
            end
        end = (d', Ok b) -> (forall k, k <> u "verified_claims" -> dget d' k = dget d k) /\
      forall vc0, Some vc = Some vc0 -> truthy vc0 = true ->
      exists kws m, mapping vc0 kws /\ construct (cdef C_ida_VerifiedClaimsRequest) kws = Ok m /\
        dget d' (u "verified_claims") = Some (VMsg C_ida_VerifiedClaimsRequest m) /\ request_ok C_ida_VerifiedClaims (VDict m)).
  { intros kws m Hm Hv. unfold request_verify at 1. destruct (verify_base _ m) as [b1|]; [|discriminate]. cbn [bind].
    destruct (request_good (VDict m) C_ida_VerifiedClaims) as [Hr _].
    destruct (verify_claims_request (VDict m) C_ida_VerifiedClaims) as [[]|]; [|discriminate]. cbn [bind].
    change (setitem (cdef C_ida_IDAClaimsRequest) d (u "verified_claims") (VMsg C_ida_VerifiedClaimsRequest m))
      with (dset d (u "verified_claims") (VMsg C_ida_VerifiedClaimsRequest m), @Ok unit tt). cbv iota.
    intro H. injection H as <- <-. split.
    - intros k Hk. apply dget_dset_other. congruence.
    - intros vc0 E _. injection E as <-. exists kws, m. split; [exact Hv|]. split; [exact Hm|]. split; [apply dget_dset_same|].
      apply Hr. reflexivity. }
  destruct vc as [| | | | | |kws|c kws]; try discriminate.
  - destruct (construct _ kws) as [m|] eqn:Em; [|discriminate]. apply (G kws m Em). left. reflexivity.
  - destruct (construct _ kws) as [m|] eqn:Em; [|discriminate]. apply (G kws m Em). right. eauto.
Qed.
Lemma ida_list : forall d l, dget d (u "verified_claims") = Some (VList l) -> l <> [] ->
  verify_base (cdef C_ida_IDAClaimsRequest) d = Ok true ->
  ida_claims_verify (cdef C_ida_IDAClaimsRequest) d = (d, Err ETypeError).
Proof.
  intros d l Hl Hn Hb. unfold ida_claims_verify. rewrite Hb, get_spec, Hl. replace (truthy (VList l)) with true by (destruct l; [congruence|reflexivity]).
  reflexivity.
Qed.

(** ** ClaimsConstructor *)
Lemma isinstance_spec : forall t v, isinstance v t = true <-> instance_of t v.
Proof.
  intros t v. destruct t, v; cbn [isinstance instance_of]; split; intro H; try discriminate; try reflexivity; try contradiction; eauto;
  try (destruct H as [? H]; discriminate); try (destruct H as [[? H]|[? H]]; discriminate); try (destruct H as (? & ? & H & ?); discriminate).
  destruct H as (c' & d' & E & H). injection E as -> ->. exact H.
Qed.
Lemma cc_set_spec : forall c info k x, (cc_set (cdef c) info k x = Ok (dset info k x) <-> admissible c k x) /\
  forall r, cc_set (cdef c) info k x = r -> r = Ok (dset info k x) \/ r = Err EValueError \/ r = Err ETypeError.
Proof.
  intros c info k x. unfold cc_set, admissible, value_type. destruct (dget (cd_param (cdef c)) k) as [s|] eqn:Es.
  2: { assert (E : match x with CV VNone => Ok (dset info k x) | _ => Ok (dset info k x) end = @Ok (dict claim) (dset info k x))
         by (destruct x as [[]|]; reflexivity).
       cbn [option_map]. rewrite E. split; [split; [discriminate|reflexivity]|]. intros r <-. auto. }
  cbn [option_map]. destruct x as [v|base i].
  - assert (E : forall A : Prop, (v = VNone -> A) -> (v <> VNone -> A) -> A).
    { intros A H1 H2. destruct (value_eq_none v); auto. }
    apply E; clear E; intro Hv.
    + subst v. split; [|intros r <-; auto]. split; [intros _ s' _; auto|reflexivity].
    + assert (E : match v with VNone => Ok (dset info k (CV v)) | _ =>
          do b <- correct_value_type v (p_typ s) ; if b then Ok (dset info k (CV v)) else Err EValueError end =
          do b <- correct_value_type v (p_typ s) ; if b then Ok (dset info k (CV v)) else Err EValueError)
        by (destruct v; congruence).
      rewrite E. clear E. unfold correct_value_type. pose proof (isinstance_spec (p_typ s) v) as Hi.
      destruct (p_typ s) as [| | | |c0|t] eqn:Et.
      6: { cbn [bind]. split; [|intros r <-; auto]. split; [discriminate|]. intro H. destruct (H s eq_refl) as [?|H']; [contradiction|].
           rewrite Et in H'. destruct H'. }
      all: cbn [bind]; destruct (isinstance v _); (split; [|intros r <-; auto]); split; intro H; try discriminate; try reflexivity;
        try (intros s' Hs; injection Hs as <-; right; rewrite Et; apply Hi; reflexivity);
        exfalso; destruct (H s eq_refl) as [?|H']; try contradiction; rewrite Et in H'; apply Hi in H'; discriminate.
  - destruct (p_typ s) as [| | | |c0|t] eqn:Et; cbn [bind]; try (split; [split; [discriminate|]|intros r <-; auto]; intro H;
      destruct (H s eq_refl) as (c' & E & _); congruence).
    destruct (subclass base c0) eqn:Eb; (split; [|intros r <-; auto]); split; intro H; try discriminate; try reflexivity.
    + intros s' Hs. injection Hs as <-. exists c0. auto.
    + destruct (H s eq_refl) as (c' & E & E2). congruence.
Qed.
Lemma cc_set_not : forall c info k x, ~ admissible c k x -> exists e, cc_set (cdef c) info k x = Err e /\ (e = EValueError \/ e = ETypeError).
Proof.
  intros c info k x H. destruct (cc_set_spec c info k x) as [H1 H2]. destruct (H2 _ eq_refl) as [E|[E|E]]; eauto.
  apply H1 in E. contradiction.
Qed.
Lemma admissible_dec : forall c k x, admissible c k x \/ ~ admissible c k x.
Proof.
  intros c k x. destruct (cc_set_spec c [] k x) as [H1 H2]. destruct (H2 _ eq_refl) as [E|[E|E]].
  - left. apply H1, E.
  - right. intro H. apply H1 in H. congruence.
  - right. intro H. apply H1 in H. congruence.
Qed.
Lemma cc_run_app : forall c h1 h2 info, cc_run c info (h1 ++ h2) = cc_run c (cc_run c info h1) h2.
Proof. intros c h1. induction h1 as [|[k x] h1 IH]; intros h2 info; [reflexivity|]. cbn [app cc_run]. apply IH. Qed.
Lemma cc_run_rejected : forall c k h info, (forall y, In (k, y) h -> ~ admissible c k y) -> dget (cc_run c info h) k = dget info k.
Proof.
  intros c k h. induction h as [|[k' x] h IH]; intros info H; [reflexivity|]. cbn [cc_run]. rewrite IH; [|intros y Hy; apply H; right; exact Hy].
  destruct (admissible_dec c k' x) as [Ha|Ha].
  - rewrite (proj2 (proj1 (cc_set_spec c info k' x)) Ha). apply dget_dset_other. intros ->. exact (H x (or_introl eq_refl) Ha).
  - destruct (cc_set_not c info k' x Ha) as (e & -> & _). reflexivity.
Qed.
Lemma cc_latest : forall c h k x, latest_of k h (admissible c k) x -> dget (cc_run c [] h) k = Some x.
Proof.
  intros c h k x (h1 & h2 & -> & Ha & Hr). rewrite cc_run_app. cbn [cc_run]. rewrite cc_run_rejected by exact Hr.
  rewrite (proj2 (proj1 (cc_set_spec c _ k x)) Ha). apply dget_dset_same.
Qed.
Lemma cc_none : forall c h k, (forall x, In (k, x) h -> ~ admissible c k x) -> dget (cc_run c [] h) k = None.
Proof. intros c h k H. rewrite cc_run_rejected by exact H. reflexivity. Qed.
Lemma cc_to_dict_get : forall info k, dget (cc_to_dict info) k = option_map cc_value (dget info k).
Proof. intros info k. unfold cc_to_dict. apply (dget_map _ _ cc_value). Qed.
Fixpoint cc_shows (x : claim) : shows x (cc_value x).
Proof.
  destruct x as [v|base info].
  - constructor.
  - cbn [cc_value]. constructor. induction info as [|[k x] info IH]; cbn [map]; constructor; [|exact IH].
    split; [reflexivity|apply cc_shows].
Qed.
Lemma constructor_history : forall c h k,
  (forall x, latest_of k h (admissible c k) x -> exists v, dget (cc_to_dict (cc_run c [] h)) k = Some v /\ shows x v) /\
  ((forall x, In (k, x) h -> ~ admissible c k x) -> dget (cc_to_dict (cc_run c [] h)) k = None).
Proof.
  intros c h k. rewrite cc_to_dict_get. split.
  - intros x H. rewrite (cc_latest c h k x H). eexists. split; [reflexivity|apply cc_shows].
  - intro H. rewrite (cc_none c h k H). reflexivity.
Qed.
Lemma dictionaries_refused : forall c info k s e, dget (cd_param (cdef c)) k = Some s ->
  (simple (p_typ s) \/ exists t, p_typ s = TList t) ->
  cc_set (cdef c) info k (CV (VDict e)) = Err EValueError \/ cc_set (cdef c) info k (CV (VDict e)) = Err ETypeError.
Proof.
  intros c info k s e Hs Ht. assert (N : ~ admissible c k (CV (VDict e))).
  { intro H. destruct (H s Hs) as [?|H']; [discriminate|]. destruct Ht as [[E|[E|E]]|[t E]]; rewrite E in H'; cbn [instance_of] in H'.
    - destruct H' as [? H']. discriminate.
    - destruct H' as [[? H']|[? H']]; discriminate.
    - destruct H' as [? H']. discriminate.
    - destruct H'. }
  destruct (cc_set_not c info k _ N) as (x & E & [->| ->]); auto.
Qed.
Lemma plain_passes : forall v c k s, In (k, s) (cd_param (cdef c)) -> simple (p_typ s) ->
  (forall d, v <> VDict d) -> member_ok (p_typ s) v /\ claims_value_check v (p_typ s) = Ok tt.
Proof.
  intros v c k s _ Ht Hv. assert (G : value_ok (p_typ s) v) by (intros d E; destruct (Hv d E)).
  split; [apply MSimple; assumption|]. apply (check_value_iff (p_typ s) v Ht), G.
Qed.
Lemma nested_unchecked : exists vc d, ~ request_ok C_ida_VerifiedClaims vc /\
  ida_claims_verify (cdef C_ida_IDAClaimsRequest) [(u "userinfo", VDict [(u "verified_claims", vc)])] = (d, Ok false).
Proof.
  exists (VDict [(u "claims", VDict [(u "given_name", VDict [(u "essential", VStr (u "yes"))])])]). eexists. split.
  - intro H. apply request_good in H. vm_compute in H. discriminate.
  - vm_compute. reflexivity.
Qed.
