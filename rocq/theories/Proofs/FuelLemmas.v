(** Nested deserialization needs no more fuel than the library has, and never runs out of it. *)
From Coq Require Import List NArith ZArith QArith Bool String Lia.
From Verif Require Import Base.Ustr Base.Percent Model.Cls Model.Value Model.Pspec Model.Tables Model.Json Model.Message
  Proofs.ValueLemmas Proofs.MessageLemmas Proofs.EncodeLemmas Proofs.FuelJson.
Import ListNotations.
Open Scope list_scope.
Open Scope N_scope.

(** the classes a deserializer builds messages of *)
Definition dclasses (d : deserk) : list cls :=
  match d with
  | DeMsg | DeMsgList => [C_Message]
  | DeMsgCls c | DeOneOf c | DeJsonCls c => [c]
  | DeLink => [C_oidc_Link]
  | DeEvidenceList => [C_ida_Evidence; C_Message]
  | _ => []
  end.
Definition sclasses (s : pspec) : list cls :=
  match p_deser s with Some d => dclasses d | None => [] end ++
  match p_typ s with TList (TMsg c) => [c] | _ => [] end.
Fixpoint deep (m : nat) (c : cls) : bool :=
  match m with
  | O => false
  | S m => forallb (fun ks => forallb (deep m) (sclasses (snd ks))) (cd_param (cdef c))
  end.
Lemma all_deep : forall c, deep 11 c = true.
Proof. intro c. destruct c; vm_compute; reflexivity. Qed.

Definition fine {A} (r : res A) : Prop := r <> Err OutOfFuel.
Lemma fine_ok : forall A (x : A), fine (Ok x). Proof. discriminate. Qed.
Lemma fine_err : forall A e, e <> OutOfFuel -> fine (A := A) (Err e). Proof. intros A e H H1. congruence. Qed.
Lemma fine_bind : forall A B (r : res A) (f : A -> res B), fine r -> (forall x, fine (f x)) -> fine (bind r f).
Proof. intros A B [x|e] f H H1; simpl; [apply H1|]. intro Hc. apply H. congruence. Qed.
Lemma fine_mapM : forall A B (f : A -> res B) l, (forall x, In x l -> fine (f x)) -> fine (mapM f l).
Proof. intros A B f l H Hc. apply mapM_err in Hc. destruct Hc as [x [Hin Hx]]. exact (H x Hin Hx). Qed.
Lemma fine_decode : forall A (r : res A), fine r -> fine (decode_err r).
Proof. intros A [x|e] H; cbn [decode_err]; [apply fine_ok|]. destruct (artefact e); [exact H|apply fine_err; discriminate]. Qed.
#[local] Hint Resolve fine_ok fine_bind fine_mapM fine_decode : core.
#[local] Hint Extern 1 (fine (Err _)) => (apply fine_err; discriminate) : core.

Lemma fine_dumps : forall v, fine (json_dumps v).
Proof. intro v. unfold json_dumps. destruct (jerr v) eqn:E; [|auto]. apply jerr_cases in E. destruct E as [-> | ->]; auto. Qed.
Lemma fine_loads : forall s, fine (json_loads s).
Proof. exact json_loads_fuel. Qed.
Lemma fine_int : forall v, fine (py_int v).
Proof.
  intros [| | | |s| | |]; cbn [py_int]; auto. unfold py_int_str. destruct (forallb is_ascii s); [|auto]. destruct (strip s) as [|c r]; [auto|].
  destruct (c =? 45); [destruct (digits_us _ _ _); auto|]. destruct (c =? 43); destruct (digits_us _ _ _); auto.
Qed.
Lemma fine_iter : forall v, fine (py_iter v). Proof. intros []; cbn [py_iter]; auto. Qed.
Lemma fine_items : forall v, fine (items v). Proof. intros []; cbn [items]; auto. Qed.
Lemma fine_split : forall v, fine (sp_split v). Proof. intros []; cbn [sp_split]; auto. Qed.
Lemma fine_unless : forall v, fine (dumps_unless_str v).
Proof. intros []; cbn [dumps_unless_str]; auto; apply fine_bind; auto; apply fine_dumps. Qed.
#[local] Hint Resolve fine_dumps fine_loads fine_int fine_iter fine_items fine_split fine_unless : core.

Section Fine.
  Variable L : lib.
  Definition fine_spec (s : pspec) : Prop :=
    (forall d v f, p_deser s = Some d -> fine (l_deser L d v f)) /\
    (forall c kw, p_typ s = TList (TMsg c) -> fine (l_mk L c kw)).

  Lemma fine_add : forall s v, fine_spec s -> fine (add_val L s v).
  Proof.
    intros s v [H1 H2]. unfold add_val. destruct (_ && _); [auto|].
    assert (Hint : forall v, fine (match py_int v with Ok z => Ok (Some (VInt z)) | Err EValueError | Err ETypeError => Err EValueError | Err e => Err e end)).
    { intro x. pose proof (fine_int x) as F. destruct (py_int x) as [z|e]; [auto|]. destruct e; auto; destruct (F eq_refl). }
    assert (Hd : forall x f, fine (match p_deser s with Some d => decode_err (l_deser L d x f) | None => Ok x end)).
    { intros x f. destruct (p_deser s) eqn:E; auto. }
    destruct (p_typ s) as [| | | |c|t] eqn:Et;
      try (destruct v; auto; try (destruct (isinstance _ _); auto); destruct (p_deser s) eqn:E; auto; destruct c; auto; fail).
    assert (Hl : forall l, fine (do v1 <- match p_deser s with Some d => decode_err (l_deser L d (VList l) Fdict) | None => Ok (VList l) end ;
        match t with
        | TMsg c => do ms <- decode_err (do xs <- py_iter v1 ; mapM (fun x => do it <- items x ; do m <- l_mk L c it ; Ok (VMsg c m)) xs) ; Ok (Some (VList ms))
        | _ => do xs <- py_iter v1 ; if forallb (fun x => isinstance x t) xs then Ok (Some v1) else Err EDecodeError
        end)).
    { intro l. apply fine_bind; [apply Hd|]. intro v1. destruct t; try (apply fine_bind; [auto|intro xs; destruct (forallb _ xs); auto]).
      apply fine_bind; [|auto]. apply fine_decode, fine_bind; [auto|]. intro xs. apply fine_mapM. intros x _.
      apply fine_bind; [auto|]. intro it. apply fine_bind; [apply H2; reflexivity|auto]. }
    destruct v; try (destruct (p_null s); auto; fail);
      destruct (isinstance _ t); try (destruct t; try (destruct (p_deser s) eqn:E; auto; fail); auto; fail); auto;
      try (destruct (p_deser s) eqn:E; auto; fail).
  Qed.

  Definition fine_table (P : dict pspec) : Prop := forall k s, In (k, s) P -> fine_spec s.
  Lemma fine_get : forall P k s, fine_table P -> dget P k = Some s -> fine_spec s.
  Proof. intros P k s H E. apply dget_In in E. exact (H _ _ E). Qed.
  Lemma fine_entry : forall P k v, fine_table P -> fine (fd_entry L P k v).
  Proof.
    intros P k v H. unfold fd_entry. destruct (is_blank v); [auto|].
    destruct (dget P k) eqn:E1; [apply fine_add; eapply fine_get; eassumption|].
    destruct (dget P (base_key k)) eqn:E2; [apply fine_add; eapply fine_get; eassumption|].
    destruct (dget P (u "*")) eqn:E3; [|auto]. destruct v; try (apply fine_add; eapply fine_get; eassumption). auto.
  Qed.
  Lemma fine_from_items : forall P l d, fine_table P -> fine (snd (from_items L P d l)).
  Proof.
    intros P l. induction l as [|[k v] l IH]; intros d H; cbn [from_items]; [apply fine_ok|].
    pose proof (fine_entry P k v H) as F. destruct (fd_entry L P k v) as [[x|]|e]; auto. intro E. apply F. injection E as ->. reflexivity.
  Qed.
  Lemma fine_ret : forall r, fine (snd r) -> fine (ret_msg r).
  Proof. intros [d [x|e]] H; cbn [ret_msg]; [auto|]. intro E. apply H. injection E as ->. reflexivity. Qed.
  Lemma fine_construct : forall C kw, fine_table (cd_param C) -> fine (construct_gen L C kw).
  Proof. intros C kw H. unfold construct_gen. destruct (dhas _ _); [auto|]. apply fine_ret, fine_from_items, H. Qed.
  Lemma fine_dict : forall P d v, fine_table P -> fine (snd (from_dict_gen L P d v)).
  Proof. intros P d v H. unfold from_dict_gen. destruct v; cbn [items snd]; auto; apply fine_from_items, H. Qed.
  Lemma fine_json : forall P d v, fine_table P -> fine (snd (from_json_gen L P d v)).
  Proof.
    intros P d v H. unfold from_json_gen. destruct v; cbn [snd]; auto. pose proof (fine_loads s) as F. destruct (json_loads s); [apply fine_dict, H|].
    cbn [snd]. intro E. apply F. injection E as ->. reflexivity.
  Qed.
  Lemma fine_fields : forall P l d, fine_table P -> fine (snd (from_fields L P d l)).
  Proof.
    intros P l. induction l as [|[k vals] l IH]; intros d H; cbn [from_fields]; [apply fine_ok|].
    assert (F : fine (fu_entry L P k vals)).
    { unfold fu_entry, spec_of. assert (G : forall s, fine_spec s -> fine match p_typ s with
        | TList _ => match p_deser s with Some d => l_deser L d (VStr (hd [] vals)) Furl | None => Ok (VList (map VStr vals)) end
        | _ => match vals with [x] => match p_deser s with Some d => l_deser L d (VStr x) Furl | None => Ok (VStr x) end | _ => Err ETooManyValues end end).
      { intros s [G1 _]. destruct (p_typ s); try (destruct vals as [|x [|]]; auto); destruct (p_deser s) eqn:E; auto. }
      destruct (dget P k) eqn:E1; [apply G; eapply fine_get; eassumption|].
      destruct (dget P (base_key k)) eqn:E2; [apply G; eapply fine_get; eassumption|].
      destruct (dget P (u "*")) eqn:E3; [apply G; eapply fine_get; eassumption|]. destruct vals as [|x [|]]; auto. }
    destruct (fu_entry L P k vals); [auto|]. intro E. apply F. cbn [snd] in E. injection E as ->. reflexivity.
  Qed.
  Lemma fine_qs : forall P d s, fine_table P -> fine (snd (from_qs L P d s)).
  Proof. intros P d s H. unfold from_qs. destruct (parse_qs s); [destruct s; cbn [snd]; auto|apply fine_fields, H]. Qed.
  Lemma fine_url : forall P d v, fine_table P -> fine (snd (from_urlencoded_gen L P d v)).
  Proof.
    intros P d v H. unfold from_urlencoded_gen. destruct v; cbn [snd]; auto; [apply fine_qs, H|].
    destruct l as [|[] l]; cbn [snd]; auto. apply fine_qs, H.
  Qed.
  Lemma fine_deser_cls : forall c v f, fine_table (cd_param (cdef c)) -> fine (deser_cls L c v f).
  Proof.
    intros c v f H. unfold deser_cls. apply fine_bind; [|auto]. apply fine_ret.
    destruct f; [apply fine_url|apply fine_dict|apply fine_json]; exact H.
  Qed.
  Lemma fine_de_msg : forall c v f, fine_table (cd_param (cdef c)) -> fine (de_msg L c v f).
  Proof.
    intros c v f H. pose proof (fun v f => fine_deser_cls c v f H) as F. unfold de_msg.
    destruct v; auto; destruct f; auto; apply fine_bind; auto.
  Qed.
  Lemma fine_de_link : forall v f, fine_table (cd_param (cdef C_oidc_Link)) -> fine (de_link L v f).
  Proof.
    intros v f H. pose proof (fun v f => fine_deser_cls C_oidc_Link v f H) as F. unfold de_link.
    destruct v; auto; try (destruct (subclass c _); [auto|]); destruct f; auto; apply fine_bind; auto.
  Qed.
  Lemma fine_de_one_of : forall c v f, fine_table (cd_param (cdef c)) -> fine (de_one_of L c v f).
  Proof.
    intros c v f H. pose proof (fun v f => fine_deser_cls c v f H) as F. unfold de_one_of.
    apply fine_bind; [destruct f; auto|]. intro v1.
    assert (G : forall f1 f2, fine (match deser_cls L c v1 f1 with Err EFormatError => match deser_cls L c v1 f2 with Err EFormatError => Err EFormatError | r => r end | r => r end)).
    { intros f1 f2. pose proof (F v1 f1) as F1. pose proof (F v1 f2) as F2. destruct (deser_cls L c v1 f1) as [x|e]; [auto|].
      destruct e; auto. destruct (deser_cls L c v1 f2) as [x|e]; [auto|]. destruct e; auto. }
    destruct f; apply G.
  Qed.
  Lemma fine_zone : forall s, fine (parse_zone s).
  Proof.
    intro s. unfold parse_zone, zone_sum.
    repeat match goal with |- fine (match ?x with _ => _ end) => destruct x end; auto.
  Qed.
  Lemma fine_stamp : forall b v, fine (stamp_deser b v).
  Proof.
    intros b v. unfold stamp_deser. destruct v; auto. apply fine_bind; [|auto]. destruct b; unfold from_iso_date, from_iso_time;
      destruct (forallb is_ascii s); auto.
    - destruct (match_ymd s) as [[[[y m] d] r]|]; [|auto]. destruct (_ && _); auto.
    - destruct (match_stamp s) as [[[[[[[y m] d] h] mi] se] r]|]; [|auto]. apply fine_bind; [apply fine_zone|]. intro off.
      destruct (_ && _); auto.
  Qed.
  Lemma fine_deser : forall d v f, (forall c, In c (dclasses d) -> fine_table (cd_param (cdef c))) -> fine (deser_step L d v f).
  Proof.
    intros d v f H. destruct d; cbn [dclasses deser_step] in *;
      try (apply fine_de_msg, H; left; reflexivity); try (apply fine_de_one_of, H; left; reflexivity); try apply fine_stamp; auto.
    - destruct f; auto. destruct v as [| | | | |[|x [|]]| |]; auto.
    - destruct v as [| | | | |[|x [|]]| |]; auto.
    - destruct v; auto.
    - assert (F : forall l : value, fine (do xs <- py_iter l ; do ys <- mapM (fun x => de_msg L C_Message x f) xs ; Ok (VList ys))).
      { intro l. apply fine_bind; [auto|]. intro xs. apply fine_bind; [|auto]. apply fine_mapM. intros. apply fine_de_msg, H. left; reflexivity. }
      destruct v; try apply F. apply fine_bind; [|auto]. apply fine_construct, H. left; reflexivity.
    - pose proof (fun v f => fine_deser_cls c v f (H c (or_introl eq_refl))) as F. destruct f; apply fine_bind; auto. destruct v; auto.
    - destruct v; try (apply fine_de_link, H; left; reflexivity). apply fine_bind; [|auto]. apply fine_mapM. intros. apply fine_de_link, H. left; reflexivity.
    - assert (F : forall l : value, fine (do xs <- py_iter l ; do ys <- mapM (fun x => de_one_of L C_ida_Evidence x f) xs ; Ok (VList ys))).
      { intro l. apply fine_bind; [auto|]. intro xs. apply fine_bind; [|auto]. apply fine_mapM. intros. apply fine_de_one_of, H. left; reflexivity. }
      destruct v; try apply F. apply fine_bind; [|auto]. apply fine_construct, H. right; left; reflexivity.
  Qed.
End Fine.

Lemma deep_table : forall m c, deep m c = true -> fine_table (lib_n m) (cd_param (cdef c)).
Proof.
  induction m as [|m IH]; intros c H; [discriminate|]. cbn [deep] in H. rewrite forallb_forall in H. intros k s Hin.
  specialize (H _ Hin). cbn [snd] in H. rewrite forallb_forall in H. unfold sclasses in H. split.
  - intros d v f Hd. cbn [lib_n lib_step l_deser]. apply fine_deser. intros c' Hc. apply IH, H. rewrite Hd. apply in_or_app. left. exact Hc.
  - intros c' kw Ht. cbn [lib_n lib_step l_mk]. apply fine_construct. apply IH, H. rewrite Ht. apply in_or_app. right. left. reflexivity.
Qed.
(** any table, in particular that of a user defined class, read with the library *)
Lemma any_table : forall P, fine_table the_lib P.
Proof.
  intros P k s _. split.
  - intros d v f _. change (fine (deser_step (lib_n 11) d v f)). apply fine_deser. intros c _. apply deep_table, all_deep.
  - intros c kw _. change (fine (construct_gen (lib_n 11) (cdef c) kw)). apply fine_construct, deep_table, all_deep.
Qed.
Lemma reading_ends : forall C,
  (forall kw, construct C kw <> Err OutOfFuel) /\
  (forall d v, snd (from_dict C d v) <> Err OutOfFuel) /\
  (forall d s, snd (from_json C d s) <> Err OutOfFuel) /\
  (forall d s, snd (from_urlencoded C d s) <> Err OutOfFuel) /\
  (forall d k v, snd (setitem C d k v) <> Err OutOfFuel).
Proof.
  intro C. pose proof (any_table (cd_param C)) as T.
  split; [intro; apply fine_construct, T|]. split; [intros; apply fine_dict, T|]. split; [intros; apply fine_json, T|]. split; [intros; apply fine_qs, T|].
  intros d k v. unfold setitem. destruct (dget (cd_param C) k) eqn:E; [|apply fine_ok].
  pose proof (fine_add the_lib p v (fine_get _ _ _ _ T E)) as F. destruct (add_val the_lib p v) as [[x|]|e]; [apply fine_ok|apply fine_ok|].
  destruct e; cbn [snd]; solve [apply fine_ok | apply fine_err; discriminate | destruct (F eq_refl)].
Qed.

(** ** more fuel changes nothing *)
Section Same.
  Variables L L' : lib.
  Definition same_spec (s : pspec) : Prop :=
    (forall d v f, p_deser s = Some d -> l_deser L d v f = l_deser L' d v f) /\
    (forall c kw, p_typ s = TList (TMsg c) -> l_mk L c kw = l_mk L' c kw).
  Lemma same_add : forall s v, same_spec s -> add_val L s v = add_val L' s v.
  Proof.
    intros s v [H1 H2]. unfold add_val. destruct (_ && _); [reflexivity|].
    assert (Hs : forall d w f, p_deser s = Some d -> decode_err (l_deser L d w f) = decode_err (l_deser L' d w f)) by (intros; rewrite H1; auto).
    destruct (p_typ s) as [| | | |c|t] eqn:Et;
      try (destruct v; try reflexivity; try (destruct (isinstance _ _); [reflexivity|]); destruct (p_deser s) as [de|] eqn:E; try reflexivity;
           rewrite (Hs de _ _ eq_refl); reflexivity).
    assert (Hm : forall c v1, t = TMsg c -> (do xs <- py_iter v1 ; mapM (fun x => do it <- items x ; do m <- l_mk L c it ; Ok (VMsg c m)) xs) =
       (do xs <- py_iter v1 ; mapM (fun x => do it <- items x ; do m <- l_mk L' c it ; Ok (VMsg c m)) xs)).
    { intros c v1 ->. destruct (py_iter v1) as [xs|]; [|reflexivity]. cbn [bind]. apply mapM_ext_in. intros x _.
      destruct (items x); [|reflexivity]. cbn [bind]. rewrite H2 by reflexivity. reflexivity. }
    destruct v; try reflexivity; destruct (isinstance _ t); try reflexivity;
      try (destruct t; try reflexivity; destruct (p_deser s) as [de|] eqn:E; try reflexivity; rewrite (Hs de _ _ eq_refl); reflexivity);
      try (destruct (p_deser s) as [de|] eqn:E; try reflexivity; rewrite (Hs de _ _ eq_refl); reflexivity).
    assert (Hv : match p_deser s with Some d => decode_err (l_deser L d (VList l) Fdict) | None => Ok (VList l) end =
                 match p_deser s with Some d => decode_err (l_deser L' d (VList l) Fdict) | None => Ok (VList l) end).
    { destruct (p_deser s) as [de|] eqn:E; [apply Hs; reflexivity|reflexivity]. }
    rewrite Hv. match goal with |- bind ?r _ = _ => generalize r end. intros [v1|]; [|reflexivity]. cbn [bind].
    destruct t; try reflexivity. rewrite (Hm c v1 eq_refl). reflexivity.
  Qed.
  Definition same_table (P : dict pspec) : Prop := forall k s, In (k, s) P -> same_spec s.
  Lemma same_get : forall P k s, same_table P -> dget P k = Some s -> same_spec s.
  Proof. intros P k s H E. apply dget_In in E. exact (H _ _ E). Qed.
  Lemma same_entry : forall P k v, same_table P -> fd_entry L P k v = fd_entry L' P k v.
  Proof.
    intros P k v H. unfold fd_entry. destruct (is_blank v); [auto|].
    destruct (dget P k) eqn:E1; [apply same_add; eapply same_get; eassumption|].
    destruct (dget P (base_key k)) eqn:E2; [apply same_add; eapply same_get; eassumption|].
    destruct (dget P (u "*")) eqn:E3; [|auto]. destruct v; try (apply same_add; eapply same_get; eassumption). auto.
  Qed.
  Lemma same_from_items : forall P l d, same_table P -> from_items L P d l = from_items L' P d l.
  Proof.
    intros P l. induction l as [|[k v] l IH]; intros d H; cbn [from_items]; [reflexivity|]. rewrite (same_entry P k v H).
    destruct (fd_entry L' P k v) as [[x|]|e]; auto.
  Qed.
  Lemma same_construct : forall C kw, same_table (cd_param C) -> construct_gen L C kw = construct_gen L' C kw.
  Proof. intros C kw H. unfold construct_gen. rewrite same_from_items by exact H. reflexivity. Qed.
  Lemma same_dict : forall P d v, same_table P -> from_dict_gen L P d v = from_dict_gen L' P d v.
  Proof. intros P d v H. unfold from_dict_gen. destruct (items v); [apply same_from_items, H|reflexivity]. Qed.
  Lemma same_json : forall P d v, same_table P -> from_json_gen L P d v = from_json_gen L' P d v.
  Proof. intros P d v H. unfold from_json_gen. destruct v; try reflexivity. destruct (json_loads s); [apply same_dict, H|reflexivity]. Qed.
  Lemma same_qs : forall P d s, same_table P -> from_qs L P d s = from_qs L' P d s.
  Proof.
    intros P d s H. unfold from_qs. destruct (parse_qs s) as [|f fs]; [reflexivity|]. generalize (f :: fs). intro l. revert d.
    induction l as [|[k vals] l IH]; intro d; cbn [from_fields]; [reflexivity|].
    assert (F : fu_entry L P k vals = fu_entry L' P k vals).
    { unfold fu_entry. destruct (spec_of P k) as [sp|] eqn:E; [|reflexivity].
      assert (G : same_spec sp).
      { unfold spec_of in E. destruct (dget P k) eqn:E1; [injection E as <-; eapply same_get; eassumption|].
        destruct (dget P (base_key k)) eqn:E2; [injection E as <-; eapply same_get; eassumption|]. eapply same_get; eassumption. }
      destruct G as [G _]. destruct (p_deser sp) as [de|]; [|reflexivity].
      destruct (p_typ sp); try (destruct vals as [|x [|]]; try reflexivity); apply G; reflexivity. }
    rewrite F. destruct (fu_entry L' P k vals); [apply IH|reflexivity].
  Qed.
  Lemma same_url : forall P d v, same_table P -> from_urlencoded_gen L P d v = from_urlencoded_gen L' P d v.
  Proof.
    intros P d v H. unfold from_urlencoded_gen. destruct v; try reflexivity; [apply same_qs, H|].
    destruct l as [|[] l]; try reflexivity. apply same_qs, H.
  Qed.
  Lemma same_deser_cls : forall c v f, same_table (cd_param (cdef c)) -> deser_cls L c v f = deser_cls L' c v f.
  Proof.
    intros c v f H. unfold deser_cls. destruct f; [rewrite same_url by exact H|rewrite same_dict by exact H|rewrite same_json by exact H]; reflexivity.
  Qed.
  Lemma same_de_msg : forall c v f, same_table (cd_param (cdef c)) -> de_msg L c v f = de_msg L' c v f.
  Proof.
    intros c v f H. unfold de_msg. destruct v; try reflexivity; try (apply same_deser_cls, H);
      (destruct f; [apply same_deser_cls, H| |]; match goal with |- bind ?x _ = _ => destruct x; [apply same_deser_cls, H|reflexivity] end).
  Qed.
  Lemma same_de_link : forall v f, same_table (cd_param (cdef C_oidc_Link)) -> de_link L v f = de_link L' v f.
  Proof.
    intros v f H. unfold de_link. destruct v; try (apply same_deser_cls, H); try (destruct (subclass c _); [reflexivity|]);
      (destruct f; [apply same_deser_cls, H| |]; match goal with |- bind ?x _ = _ => destruct x; [apply same_deser_cls, H|reflexivity] end).
  Qed.
  Lemma same_de_one_of : forall c v f, same_table (cd_param (cdef c)) -> de_one_of L c v f = de_one_of L' c v f.
  Proof.
    intros c v f H. unfold de_one_of. match goal with |- bind ?x _ = _ => destruct x; [|reflexivity] end. cbn [bind].
    destruct f; rewrite !(fun x f => same_deser_cls c x f H); reflexivity.
  Qed.
  Lemma same_mapM : forall A (f g : A -> res value) (r : res (list A)), (forall x, f x = g x) ->
    (do xs <- r ; do ys <- mapM f xs ; Ok (VList ys)) = (do xs <- r ; do ys <- mapM g xs ; Ok (VList ys)).
  Proof. intros A f g [l|e] H; [|reflexivity]. cbn [bind]. rewrite (mapM_ext_in _ _ f g l); [reflexivity|]. intros x _. apply H. Qed.
  Lemma same_deser : forall d v f, (forall c, In c (dclasses d) -> same_table (cd_param (cdef c))) -> deser_step L d v f = deser_step L' d v f.
  Proof.
    intros d v f H. destruct d; cbn [dclasses deser_step] in *; try reflexivity;
      try (apply same_de_msg, H; left; reflexivity); try (apply same_de_one_of, H; left; reflexivity).
    - destruct v; try (apply same_mapM; intro; apply same_de_msg, H; left; reflexivity).
      rewrite same_construct by (apply H; left; reflexivity). reflexivity.
    - destruct f; match goal with |- bind ?x _ = _ => destruct x; [|reflexivity] end; apply same_deser_cls, H; left; reflexivity.
    - destruct v; try (apply same_de_link, H; left; reflexivity).
      exact (same_mapM _ _ _ (Ok l) (fun x => same_de_link x f (H _ (or_introl eq_refl)))).
    - destruct v; try (apply same_mapM; intro; apply same_de_one_of, H; left; reflexivity).
      rewrite same_construct by (apply H; right; left; reflexivity). reflexivity.
  Qed.
End Same.

Lemma deep_same : forall m c n, deep m c = true -> (m <= n)%nat -> same_table (lib_n n) (lib_n m) (cd_param (cdef c)).
Proof.
  induction m as [|m IH]; intros c n H Hn; [discriminate|]. destruct n as [|n]; [lia|].
  cbn [deep] in H. rewrite forallb_forall in H. intros k s Hin.
  specialize (H _ Hin). cbn [snd] in H. rewrite forallb_forall in H. unfold sclasses in H. split.
  - intros d v f Hd. cbn [lib_n lib_step l_deser]. apply same_deser. intros c' Hc. apply IH; [|lia]. apply H. rewrite Hd. apply in_or_app. left. exact Hc.
  - intros c' kw Ht. cbn [lib_n lib_step l_mk]. apply same_construct. apply IH; [|lia]. apply H. rewrite Ht. apply in_or_app. right. left. reflexivity.
Qed.
Lemma any_same : forall n P, (12 <= n)%nat -> same_table (lib_n n) the_lib P.
Proof.
  intros [|n] P Hn k s _; [lia|]. split.
  - intros d v f _. change (deser_step (lib_n n) d v f = deser_step (lib_n 11) d v f). apply same_deser. intros c _.
    apply deep_same; [apply all_deep|lia].
  - intros c kw _. change (construct_gen (lib_n n) (cdef c) kw = construct_gen (lib_n 11) (cdef c) kw). apply same_construct, deep_same; [apply all_deep|lia].
Qed.
Lemma depth_enough : forall C n, (12 <= n)%nat ->
  (forall kw, construct_gen (lib_n n) C kw = construct C kw) /\
  (forall d v, from_dict_gen (lib_n n) (cd_param C) d v = from_dict C d v) /\
  (forall d s, from_json_gen (lib_n n) (cd_param C) d (VStr s) = from_json C d s) /\
  (forall d s, from_qs (lib_n n) (cd_param C) d s = from_urlencoded C d s).
Proof.
  intros C n Hn. pose proof (any_same n (cd_param C) Hn) as T.
  split; [intro; apply same_construct, T|]. split; [intros; apply same_dict, T|]. split; [intros; apply same_json, T|intros; apply same_qs, T].
Qed.
