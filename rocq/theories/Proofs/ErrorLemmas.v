(** The exceptions of reading a message. *)
From Coq Require Import List NArith ZArith QArith Bool String Lia.
From Verif Require Import Base.Ustr Base.Percent Model.Cls Model.Value Model.Pspec Model.Tables Model.Float Model.Json Model.Calendar Model.Message Spec.ErrorSpec
  Proofs.ValueLemmas Proofs.MessageLemmas Proofs.EncodeLemmas Proofs.FuelJson Proofs.FuelLemmas.
Import ListNotations.
Open Scope list_scope.
Open Scope N_scope.

(** all exceptions of a computation are among [S] *)
Definition within (S : list exn) {A} (r : res A) : Prop := forall e, r = Err e -> In e S.
Lemma within_ok : forall S A (x : A), within S (Ok x). Proof. intros S A x e H. discriminate. Qed.
Lemma within_err : forall S A e, In e S -> within S (A := A) (Err e). Proof. intros S A e H e' E. injection E as <-. exact H. Qed.
Lemma within_bind : forall S A B (r : res A) (f : A -> res B), within S r -> (forall x, r = Ok x -> within S (f x)) -> within S (bind r f).
Proof. intros S A B [x|e] f H H1 e' E; cbn [bind] in E; [exact (H1 x eq_refl e' E)|]. apply H. congruence. Qed.
Lemma within_mapM : forall S A B (f : A -> res B) l, (forall x, In x l -> within S (f x)) -> within S (mapM f l).
Proof. intros S A B f l H e Hc. apply mapM_err in Hc. destruct Hc as [x [Hin Hx]]. exact (H x Hin e Hx). Qed.
Lemma within_incl : forall S S' A (r : res A), incl S S' -> within S r -> within S' r.
Proof. intros S S' A r H H1 e E. apply H, H1, E. Qed.
(** whatever is raised becomes a DecodeError *)
Lemma within_decode : forall A (r : res A), fine r -> within [EDecodeError; OutOfModel] (decode_err r).
Proof.
  intros A [x|e] H e' E; cbn [decode_err] in E; [discriminate|]. destruct (artefact e) eqn:Ea.
  - injection E as <-. destruct e; try discriminate Ea; [right; left; reflexivity|destruct (H eq_refl)].
  - injection E as <-. left. reflexivity.
Qed.

(** *** JSON texts *)
Definition SJ : list exn := [EJSONDecodeError; OutOfModel].
Lemma jscan_errors_n : forall n s, (List.length s <= n)%nat -> within SJ (jscan s).
Proof.
  induction n as [|n IH]; intros s Hs e H; [destruct s; [|cbn in Hs; lia]; injection H as <-; left; reflexivity|].
  destruct s as [|c r]; [injection H as <-; left; reflexivity|]. cbn [List.length] in Hs. cbn [jscan] in H.
  break; injection H as <-; try (left; reflexivity);
    match goal with E : jscan _ = Err ?x |- _ => refine (IH _ _ x E); cbn [List.length] in *; lia end.
Qed.
Lemma jscan_errors : forall s, within SJ (jscan s).
Proof. intro s. apply (jscan_errors_n (List.length s)). lia. Qed.
Lemma jnum_errors : forall b s, within SJ (jnum b s).
Proof.
  intros b s e H. unfold jnum in H. destruct s as [|c s]; [injection H as <-; left; reflexivity|].
  destruct (is_digit c); [|injection H as <-; left; reflexivity].
  destruct (if c =? 48 then ([48], s) else span is_digit (c :: s)) as [ds rest].
  destruct (jfrac rest) as [fs rest1]. destruct (jexp rest1) as [ex rest2]. cbv zeta in H.
  destruct fs as [|f fs]; [destruct ex as [x|]|]; [|discriminate|]; (destruct (float_of _ _); [discriminate|]; injection H as <-; right; left; reflexivity).
Qed.
Lemma jval_errors : forall n, (forall s, within (OutOfFuel :: SJ) (jval n s)) /\ (forall s, within (OutOfFuel :: SJ) (jarr n s)) /\
  (forall s, within (OutOfFuel :: SJ) (jobj n s)).
Proof.
  assert (J : In EJSONDecodeError (OutOfFuel :: SJ)) by (cbn; tauto). assert (O : In OutOfModel (OutOfFuel :: SJ)) by (cbn; tauto).
  assert (SC : forall s, within (OutOfFuel :: SJ) (jscan s)) by (intro s; eapply within_incl; [|apply jscan_errors]; intros x Hx; right; exact Hx).
  assert (NU : forall b s, within (OutOfFuel :: SJ) (jnum b s)) by (intros b s; eapply within_incl; [|apply jnum_errors]; intros x Hx; right; exact Hx).
  induction n as [|n (IV & IA & IO)]; [repeat split; intros s e H; injection H as <-; left; reflexivity|]. split; [|split].
  - intros s e H. destruct s as [|c s]; [injection H as <-; exact J|]. cbn [jval] in H.
    destruct (c =? 34); [destruct (jscan s) as [[t r']|x] eqn:E; [discriminate|]; injection H as <-; exact (SC _ _ E)|].
    destruct (c =? 123).
    { destruct (skipws s) as [|c1 r1] eqn:E; [injection H as <-; exact J|]. destruct (c1 =? 125); [discriminate|].
      destruct (jobj n (c1 :: r1)) as [[t r']|x] eqn:E2; [discriminate|]. injection H as <-. exact (IO _ _ E2). }
    destruct (c =? 91).
    { destruct (skipws s) as [|c1 r1] eqn:E; [injection H as <-; exact J|]. destruct (c1 =? 93); [discriminate|].
      destruct (jarr n (c1 :: r1)) as [[t r']|x] eqn:E2; [discriminate|]. injection H as <-. exact (IA _ _ E2). }
    destruct (startswith (u "null") (c :: s)); [discriminate|]. destruct (startswith (u "true") (c :: s)); [discriminate|].
    destruct (startswith (u "false") (c :: s)); [discriminate|].
    destruct (_ || _); [injection H as <-; exact O|]. destruct (c =? 45); exact (NU _ _ _ H).
  - intros s e H. cbn [jarr] in H. destruct (jval n s) as [[x rest]|x] eqn:E; [|injection H as <-; exact (IV _ _ E)].
    destruct (skipws rest) as [|c r1]; [injection H as <-; exact J|]. destruct (c =? 93); [discriminate|].
    destruct (c =? 44); [|injection H as <-; exact J]. destruct (jarr n (skipws r1)) as [[l r']|y] eqn:E2; [discriminate|].
    injection H as <-. exact (IA _ _ E2).
  - intros s e H. cbn [jobj] in H. destruct s as [|q s]; [injection H as <-; exact J|]. destruct (q =? 34); [|injection H as <-; exact J].
    destruct (jscan s) as [[k r1]|x] eqn:E; [|injection H as <-; exact (SC _ _ E)].
    destruct (skipws r1) as [|c r2]; [injection H as <-; exact J|]. destruct (c =? 58); [|injection H as <-; exact J].
    destruct (jval n (skipws r2)) as [[v r3]|x] eqn:E1; [|injection H as <-; exact (IV _ _ E1)].
    destruct (skipws r3) as [|c3 r4]; [injection H as <-; exact J|]. destruct (c3 =? 125); [discriminate|].
    destruct (c3 =? 44); [|injection H as <-; exact J].
    destruct (jobj n (skipws r4)) as [[l r']|y] eqn:E2; [discriminate|]. injection H as <-. exact (IO _ _ E2).
Qed.
Lemma loads_errors : forall s, within SJ (json_loads s).
Proof.
  intros s e H. assert (G : In e (OutOfFuel :: SJ)).
  { unfold json_loads in H. destruct s as [|c s]; [injection H as <-; cbn; tauto|].
    destruct (c =? 65279); [injection H as <-; cbn; tauto|].
    destruct (jval _ _) as [[v rest]|x] eqn:E; [|injection H as <-; exact (proj1 (jval_errors _) _ _ E)].
    destruct (skipws rest); [discriminate|injection H as <-; cbn; tauto]. }
  destruct G as [<-|G]; [destruct (json_loads_fuel _ H)|exact G].
Qed.

(** *** values of declared parameters *)
Definition SA : list exn := [EValueError; EDecodeError; OutOfModel].
Definition list_spec (s : pspec) : bool :=
  match p_typ s with
  | TList (TMsg _) => true
  | TList _ => match p_deser s with None | Some DeList | Some DeSpSep => true | _ => false end
  | _ => true
  end.
Lemma all_list_spec : forall c k s, In (k, s) (cd_param (cdef c)) -> list_spec s = true.
Proof.
  assert (G : forall c, forallb (fun ks => list_spec (snd ks)) (cd_param (cdef c)) = true) by (intro c; destruct c; vm_compute; reflexivity).
  intros c k s H. specialize (G c). rewrite forallb_forall in G. exact (G _ H).
Qed.
Lemma int_errors : forall v, within [EValueError; ETypeError; OutOfModel] (py_int v).
Proof.
  intros v e H. destruct v; cbn [py_int] in H; try discriminate; try (injection H as <-; cbn; tauto). unfold py_int_str in H.
  destruct (forallb is_ascii s); [|injection H as <-; cbn; tauto]. destruct (strip s) as [|c r]; [injection H as <-; cbn; tauto|].
  destruct (c =? 45); [destruct (digits_us _ _ _); [discriminate|injection H as <-; cbn; tauto]|].
  destruct (c =? 43); destruct (digits_us _ _ _); try discriminate; injection H as <-; cbn; tauto.
Qed.
Lemma sp_split_list : forall v x, sp_split v = Ok x -> exists l, x = VList l.
Proof. intros v x H. destruct v; cbn [sp_split] in H; try discriminate. injection H as <-. eauto. Qed.

Section Errors.
  Variable m : nat.
  Notation L := (lib_n (S m)).
  Lemma add_errors : forall s v, fine_spec L s -> list_spec s = true -> within SA (add_val L s v).
  Proof.
    intros s v [H1 H2] Hs.
    assert (D : forall A (r : res A), fine r -> within SA (decode_err r)).
    { intros A r Hr. eapply within_incl; [|apply within_decode, Hr]. intros x Hx. right. exact Hx. }
    assert (V : forall A, within SA (A := A) (Err EValueError)) by (intros; apply within_err; cbn; tauto).
    assert (DE : forall A, within SA (A := A) (Err EDecodeError)) by (intros; apply within_err; cbn; tauto).
    assert (OM : forall A, within SA (A := A) (Err OutOfModel)) by (intros; apply within_err; cbn; tauto).
    assert (K : forall A (x : A), within SA (Ok x)) by (intros; apply within_ok).
    assert (DS : forall d x f, p_deser s = Some d -> within SA (do y <- decode_err (l_deser L d x f) ; Ok (Some y))).
    { intros d x f Hd. apply within_bind; [apply D, H1, Hd|intros; apply K]. }
    unfold add_val. destruct (_ && _); [apply K|].
    destruct (p_typ s) as [| | | |c|t] eqn:Et.
    6: { destruct v as [| | | | |l| |]; try (destruct (p_null s); auto; fail).
      1-4,6-7: match goal with |- within SA (if isinstance ?w ?t0 then _ else _) => destruct (isinstance w t0) eqn:Ei end;
        try (destruct t; auto; destruct (p_deser s) eqn:E; auto; fail); auto; destruct (p_deser s) eqn:E; auto.
      destruct (isinstance (VList l) t) eqn:Ei; [destruct t; auto; destruct (p_deser s) eqn:E; auto|].
      destruct t as [| | | |c|t'].
      5: { apply within_bind; [destruct (p_deser s) eqn:E; [apply D, H1; reflexivity|apply K]|]. intros v1 _. apply within_bind; [|intros; apply K].
           apply D. apply fine_bind; [apply fine_iter|]. intro xs. apply fine_mapM. intros x _. apply fine_bind; [apply fine_items|].
           intro it. apply fine_bind; [apply H2; reflexivity|intros; apply fine_ok]. }
      all: unfold list_spec in Hs; rewrite Et in Hs.
      all: assert (G : forall v1, match p_deser s with Some d => decode_err (l_deser L d (VList l) Fdict) | None => Ok (VList l) end = Ok v1 -> exists xs, v1 = VList xs) by
        (intros v1 E1; destruct (p_deser s) as [[]|]; try discriminate Hs; try (injection E1 as <-; eauto; fail);
         cbn [lib_n lib_step l_deser deser_step] in E1; destruct l as [|x [|y l]]; try (cbn [decode_err] in E1; injection E1 as <-; eauto; fail);
         destruct (sp_split x) eqn:Ex; cbn [decode_err] in E1; [injection E1 as <-; eapply sp_split_list, Ex|destruct (artefact e); discriminate]).
      all: apply within_bind; [destruct (p_deser s) eqn:E; [apply D, H1; reflexivity|apply K]|].
      all: intros v1 E1; destruct (G v1 E1) as [xs ->]; cbn [py_iter bind]; destruct (forallb _ xs); auto. }
    all: destruct v; auto;
      match goal with |- within SA (if ?b then _ else _) => destruct b; [apply K|] | _ => idtac end;
      try (destruct (p_deser s) eqn:E; auto; fail).
    all: destruct (p_deser s) eqn:E; auto.
    all: try (destruct c; auto; fail).
    all: match goal with |- within SA match py_int ?v with _ => _ end => pose proof (int_errors v) as HI; destruct (py_int v) as [n0|e]; [apply K|];
      specialize (HI e eq_refl); cbn [In] in HI; destruct HI as [<-|[<-|[<-|[]]]]; auto end.
  Qed.
End Errors.

(** *** dictionaries and JSON texts *)
Definition good_table (m : nat) (P : dict pspec) : Prop := fine_table (lib_n (S m)) P /\ forall k s, In (k, s) P -> list_spec s = true.
Section Reading.
  Variable m : nat.
  Notation L := (lib_n (S m)).
  Lemma entry_errors : forall P k v, good_table m P -> within SA (fd_entry L P k v).
  Proof.
    intros P k v [H1 H2]. assert (G : forall k s, dget P k = Some s -> within SA (add_val L s v)).
    { intros k0 s E. apply dget_In in E. apply add_errors; [exact (H1 _ _ E)|exact (H2 _ _ E)]. }
    unfold fd_entry. destruct (is_blank v); [apply within_ok|]. destruct (dget P k) eqn:E1; [eapply G, E1|].
    destruct (dget P (base_key k)) eqn:E2; [eapply G, E2|]. destruct (dget P (u "*")) eqn:E3; [|apply within_ok].
    destruct v; try (eapply G, E3). apply within_ok.
  Qed.
  Lemma items_errors : forall P l d, good_table m P -> within SA (snd (from_items L P d l)).
  Proof.
    intros P l. induction l as [|[k v] l IH]; intros d H; cbn [from_items]; [apply within_ok|].
    pose proof (entry_errors P k v H) as F. destruct (fd_entry L P k v) as [[x|]|e]; auto.
    cbn [snd]. apply within_err, F. reflexivity.
  Qed.
  Definition SD : list exn := EAttributeError :: SA.
  Lemma dict_errors : forall P d v, good_table m P -> within SD (snd (from_dict_gen L P d v)).
  Proof.
    intros P d v H. unfold from_dict_gen. destruct v; cbn [items snd]; try (apply within_err; left; reflexivity);
      (eapply within_incl; [|apply items_errors, H]; intros x Hx; right; exact Hx).
  Qed.
  Definition ST : list exn := EJSONDecodeError :: SD.
  Lemma json_errors : forall P d s, good_table m P -> within ST (snd (from_json_gen L P d (VStr s))).
  Proof.
    intros P d s H. unfold from_json_gen. pose proof (loads_errors s) as F. destruct (json_loads s) as [j|e].
    - eapply within_incl; [|apply dict_errors, H]. intros x Hx. right. exact Hx.
    - cbn [snd]. apply within_err. specialize (F e eq_refl). cbn [SJ In] in F. cbn. tauto.
  Qed.
End Reading.

(** *** query strings *)
Definition SU : list exn := EFormatError :: ETooManyValues :: ST.
Definition SP : list exn := [EFormatError; ETooManyValues; EJSONDecodeError; EValueError; EDecodeError; OutOfModel].
Definition url_table (S : list exn) (L : lib) (P : dict pspec) : Prop :=
  forall k s, In (k, s) P -> forall d x, p_deser s = Some d -> within S (l_deser L d (VStr x) Furl).
Lemma fields_errors : forall S L P l d, In ETooManyValues S -> url_table S L P -> within S (snd (from_fields L P d l)).
Proof.
  intros S L P l d HS H. revert d. induction l as [|[k vals] l IH]; intros d; cbn [from_fields]; [apply within_ok|].
  assert (F : within S (fu_entry L P k vals)).
  { unfold fu_entry, spec_of. assert (G : forall k s, dget P k = Some s -> within S match p_typ s with
        | TList _ => match p_deser s with Some d => l_deser L d (VStr (hd [] vals)) Furl | None => Ok (VList (map VStr vals)) end
        | _ => match vals with [x] => match p_deser s with Some d => l_deser L d (VStr x) Furl | None => Ok (VStr x) end | _ => Err ETooManyValues end end).
    { intros k0 s E. apply dget_In in E. pose proof (H _ _ E) as Hd.
      destruct (p_typ s); try (destruct vals as [|x [|]]; try (apply within_err, HS)); destruct (p_deser s) eqn:E1; try apply within_ok; apply Hd; reflexivity. }
    destruct (dget P k) eqn:E1; [eapply G, E1|]. destruct (dget P (base_key k)) eqn:E2; [eapply G, E2|].
    destruct (dget P (u "*")) eqn:E3; [eapply G, E3|]. destruct vals as [|x [|]]; apply within_ok. }
  destruct (fu_entry L P k vals); [auto|]. cbn [snd]. apply within_err, F. reflexivity.
Qed.
Lemma qs_errors : forall S L P d s, In ETooManyValues S -> In EFormatError S -> url_table S L P -> within S (snd (from_qs L P d s)).
Proof.
  intros S L P d s H1 H2 H. unfold from_qs. destruct (parse_qs s); [destruct s; cbn [snd]; [apply within_ok|apply within_err, H2]|apply fields_errors; assumption].
Qed.
Lemma ret_errors : forall S r, within S (snd r) -> within S (ret_msg r).
Proof. intros S [d [x|e]] H; cbn [ret_msg]; [apply within_ok|]. apply within_err, H. reflexivity. Qed.
Lemma zone_errors : forall s, within [EValueError; OutOfModel] (parse_zone s).
Proof.
  intro s. unfold parse_zone, zone_sum.
  repeat match goal with |- within _ (match ?x with _ => _ end) => destruct x end; try apply within_ok; apply within_err; cbn; tauto.
Qed.
Lemma stamp_errors : forall b s, within [EValueError; OutOfModel] (stamp_deser b (VStr s)).
Proof.
  intros b s. unfold stamp_deser. apply within_bind; [|intros; apply within_ok]. destruct b; unfold from_iso_date, from_iso_time;
    destruct (forallb is_ascii s); try (apply within_err; cbn; tauto).
  - destruct (match_ymd s) as [[[[y mo] d] r]|]; [|apply within_err; cbn; tauto]. destruct (_ && _); [apply within_ok|apply within_err; cbn; tauto].
  - destruct (match_stamp s) as [[[[[[[y mo] d] h] mi] se] r]|]; [|apply within_err; cbn; tauto]. apply within_bind; [apply zone_errors|]. intros off _.
    destruct (_ && _); [apply within_ok|apply within_err; cbn; tauto].
Qed.

Section Query.
  Variable m : nat.
  Notation L := (lib_n (S m)).
  Definition ready (c : cls) : Prop := good_table m (cd_param (cdef c)) /\ url_table SU L (cd_param (cdef c)).
  Lemma cls_url : forall c x, ready c -> within SU (deser_cls L c (VStr x) Furl).
  Proof.
    intros c x [_ H]. unfold deser_cls. apply within_bind; [|intros; apply within_ok]. apply ret_errors. apply qs_errors; [cbn; tauto|cbn; tauto|exact H].
  Qed.
  Lemma cls_json : forall c x, ready c -> within SU (deser_cls L c (VStr x) Fjson).
  Proof.
    intros c x [H _]. unfold deser_cls. apply within_bind; [|intros; apply within_ok]. apply ret_errors.
    eapply within_incl; [|apply json_errors, H]. intros e He. right. right. exact He.
  Qed.
  Lemma one_of_url : forall c x, ready c -> within SU (de_one_of L c (VStr x) Furl).
  Proof.
    intros c x H. unfold de_one_of. cbn [bind]. pose proof (cls_url c x H) as F1. pose proof (cls_json c x H) as F2.
    destruct (deser_cls L c (VStr x) Furl) as [y|e]; [apply within_ok|]. destruct e; try exact F1.
    destruct (deser_cls L c (VStr x) Fjson) as [y|e]; [apply within_ok|]. destruct e; exact F2.
  Qed.
  Lemma chars_errors : forall S (f : value -> res value) x, (forall s, within S (f (VStr s))) ->
    within S (do xs <- py_iter (VStr x) ; do ys <- mapM f xs ; Ok (VList ys)).
  Proof.
    intros S f x H. cbn [py_iter bind]. apply within_bind; [|intros; apply within_ok]. apply within_mapM.
    intros y Hy. apply in_map_iff in Hy. destruct Hy as [c [<- _]]. apply H.
  Qed.
  Lemma deser_url : forall d x, (forall c, In c (dclasses d) -> ready c) -> within SU (deser_step L d (VStr x) Furl).
  Proof.
    intros d x H. destruct d; cbn [dclasses deser_step] in *; try apply within_ok;
      try (eapply within_incl; [|apply loads_errors]; intros e He; cbn [SJ In] in He; cbn; tauto);
      try (eapply within_incl; [|apply stamp_errors]; intros e He; cbn [In] in He; cbn; tauto);
      try (apply cls_url, H; left; reflexivity); try (apply one_of_url, H; left; reflexivity);
      try (apply chars_errors; intro s; apply cls_url, H; left; reflexivity);
      try (apply chars_errors; intro s; apply one_of_url, H; left; reflexivity).
    cbn [dumps_unless_str bind]. apply cls_json, H. left. reflexivity.
  Qed.
  (** deserializers that build no message of a class *)
  Definition plain_deser (d : deserk) : bool :=
    match d with DeMsgCls _ | DeOneOf _ | DeJsonCls _ | DeLink | DeEvidenceList => false | _ => true end.
  Lemma message_url : forall x, within SP (deser_cls L C_Message (VStr x) Furl).
  Proof.
    intro x. unfold deser_cls. apply within_bind; [|intros; apply within_ok]. apply ret_errors. apply qs_errors; [cbn; tauto|cbn; tauto|].
    intros k s Hin. vm_compute in Hin. destruct Hin.
  Qed.
  Lemma plain_url : forall d x, plain_deser d = true -> within SP (deser_step L d (VStr x) Furl).
  Proof.
    intros d x H. destruct d; try discriminate H; cbn [deser_step]; try apply within_ok; try apply message_url;
      try (eapply within_incl; [|apply loads_errors]; intros e He; cbn [SJ In] in He; cbn; tauto);
      try (eapply within_incl; [|apply stamp_errors]; intros e He; cbn [In] in He; cbn; tauto).
    apply chars_errors. intro s. apply message_url.
  Qed.
End Query.

Lemma deep_good : forall m c, deep (S m) c = true -> good_table m (cd_param (cdef c)).
Proof. intros m c H. split; [apply deep_table, H|]. intros k s. apply all_list_spec. Qed.
Lemma deep_url : forall m c, deep (S m) c = true -> url_table SU (lib_n (S m)) (cd_param (cdef c)).
Proof.
  induction m as [|m IH]; intros c H k s Hin d x Hd.
  - cbn [deep] in H. rewrite forallb_forall in H. specialize (H _ Hin). cbn [snd] in H. rewrite forallb_forall in H. unfold sclasses in H. rewrite Hd in H.
    change (within SU (deser_step (lib_n 0) d (VStr x) Furl)).
    assert (N : dclasses d = []).
    { destruct (dclasses d) as [|c' r]; [reflexivity|]. exfalso. specialize (H c' (or_introl eq_refl)). discriminate. }
    destruct d; try discriminate N; cbn [deser_step]; try apply within_ok.
    + eapply within_incl; [|apply loads_errors]. intros e He. cbn [SJ In] in He. cbn. tauto.
    + eapply within_incl; [|apply stamp_errors]. intros e He. cbn [In] in He. cbn. tauto.
    + eapply within_incl; [|apply stamp_errors]. intros e He. cbn [In] in He. cbn. tauto.
  - change (deep (S (S m)) c) with (forallb (fun ks => forallb (deep (S m)) (sclasses (snd ks))) (cd_param (cdef c))) in H.
    rewrite forallb_forall in H. specialize (H _ Hin). cbn [snd] in H. rewrite forallb_forall in H. unfold sclasses in H. rewrite Hd in H.
    change (within SU (deser_step (lib_n (S m)) d (VStr x) Furl)). apply deser_url. intros c' Hc.
    assert (D : deep (S m) c' = true) by (apply H, in_or_app; left; exact Hc). split; [apply deep_good, D|apply IH, D].
Qed.
Lemma deep12 : forall c, deep 12 c = true.
Proof. intro c. destruct c; vm_compute; reflexivity. Qed.

Theorem reading_errors : forall c,
  (forall d l d' e, from_dict (cdef c) d (VDict l) = (d', Err e) -> In e SA) /\
  (forall d t d' e, from_json (cdef c) d t = (d', Err e) -> In e ST) /\
  (forall d t d' e, from_urlencoded (cdef c) d t = (d', Err e) -> In e SU) /\
  ((forall k s z, In (k, s) (cd_param (cdef c)) -> p_deser s = Some z -> plain_deser z = true) ->
   forall d t d' e, from_urlencoded (cdef c) d t = (d', Err e) -> In e SP).
Proof.
  intro c. pose proof (deep_good 11 c (deep12 c)) as G. pose proof (deep_url 11 c (deep12 c)) as U.
  split; [|split; [|split]].
  - intros d l d' e H. unfold from_dict in H. pose proof (items_errors 11 (cd_param (cdef c)) l d G e) as F. apply F.
    unfold from_dict_gen in H. cbn [items] in H. change the_lib with (lib_n 12) in H. rewrite H. reflexivity.
  - intros d t d' e H. apply (json_errors 11 (cd_param (cdef c)) d t G e). unfold from_json in H. change the_lib with (lib_n 12) in H. rewrite H. reflexivity.
  - intros d t d' e H. unfold from_urlencoded in H. change the_lib with (lib_n 12) in H.
    refine (qs_errors SU (lib_n 12) (cd_param (cdef c)) d t _ _ U e _); [cbn; tauto|cbn; tauto|]. rewrite H. reflexivity.
  - intros P d t d' e H. unfold from_urlencoded in H. change the_lib with (lib_n 12) in H.
    refine (qs_errors SP (lib_n 12) (cd_param (cdef c)) d t _ _ _ e _); [cbn; tauto|cbn; tauto| |rewrite H; reflexivity].
    intros k s Hin z x Hz. change (within SP (deser_step (lib_n 11) z (VStr x) Furl)). apply plain_url. eapply P; eassumption.
Qed.

Theorem dict_exceptions : forall c d l d' e, from_dict (cdef c) d (VDict l) = (d', Err e) -> In e [EValueError; EDecodeError; OutOfModel].
Proof. intros c d l d' e H. exact (proj1 (reading_errors c) d l d' e H). Qed.
Theorem json_exceptions : forall c d t d' e, from_json (cdef c) d t = (d', Err e) ->
  In e [EJSONDecodeError; EValueError; EDecodeError; OutOfModel] \/
  e = EAttributeError /\ exists v, json_loads t = Ok v /\ forall o, v <> VDict o.
Proof.
  intros c d t d' e H. unfold from_json, from_json_gen in H. pose proof (loads_errors t) as F. destruct (json_loads t) as [j|x].
  2: { injection H as _ <-. left. specialize (F x eq_refl). cbn [SJ In] in F. cbn. tauto. }
  destruct j as [| | | | | |o|cm o].
  7: { left. pose proof (dict_exceptions c d o d' e H) as G. cbn [In] in G. cbn. tauto. }
  7: { left. unfold from_dict_gen in H. cbn [items] in H. pose proof (dict_exceptions c d o d' e) as G. unfold from_dict, from_dict_gen in G. cbn [items] in G.
       specialize (G H). cbn [In] in G. cbn. tauto. }
  all: unfold from_dict_gen in H; cbn [items] in H; injection H as _ <-; right; (split; [reflexivity|]); eexists; (split; [reflexivity|]); intros o; discriminate.
Qed.
Theorem query_exceptions : forall c d t d' e, from_urlencoded (cdef c) d t = (d', Err e) ->
  In e [EFormatError; ETooManyValues; EJSONDecodeError; EValueError; EDecodeError; EAttributeError; OutOfModel].
Proof.
  intros c d t d' e H. pose proof (proj1 (proj2 (proj2 (reading_errors c))) d t d' e H) as G. cbn in G. cbn. tauto.
Qed.
Theorem plain_exceptions : forall c d t d' e, (forall k s, In (k, s) (cd_param (cdef c)) -> ~ holds_message s) ->
  from_urlencoded (cdef c) d t = (d', Err e) -> anticipated e \/ e = OutOfModel.
Proof.
  intros c d t d' e Hp H. assert (G : In e SP).
  { refine (proj2 (proj2 (proj2 (reading_errors c))) _ d t d' e H). intros k s z Hin Hz. specialize (Hp k s Hin). unfold holds_message in Hp.
    rewrite Hz in Hp. destruct z; try reflexivity; destruct (Hp I). }
  unfold SP in G. cbn [In] in G. destruct G as [<-|[<-|[<-|[<-|[<-|[<-|[]]]]]]]; try (right; reflexivity); left; vm_compute; tauto.
Qed.
