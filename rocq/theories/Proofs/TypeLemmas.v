(** Types of stored values (C05, C06) and blank values (C08). *)
From Coq Require Import List NArith ZArith QArith Bool String Lia.
From Verif Require Import Base.Ustr Base.UstrLemmas Base.Percent Model.Cls Model.Value
  Model.Pspec Model.Tables Model.Json Model.Message Spec.MessageSpec
  Proofs.ValueLemmas Proofs.MessageLemmas Proofs.EncodeLemmas.
From Verif Require Model.Float Proofs.JsonLemmas.
Import ListNotations.
Open Scope list_scope.
Open Scope N_scope.

Lemma the_lib_step : the_lib = lib_step (lib_n 11).
Proof. reflexivity. Qed.

Lemma has_type_strs : forall l, has_type (TList TStr) (VList (map VStr l)).
Proof. intro l. constructor. intros x Hx. apply in_map_iff in Hx. destruct Hx as [s [<- _]]. eauto. Qed.

Lemma sp_split_typed : forall v x, sp_split v = Ok x -> has_type (TList TStr) x.
Proof. intros v x H. destruct v; try discriminate. injection H as <-. apply has_type_strs. Qed.

Lemma decode_err_ok : forall A (r : res A) x, decode_err r = Ok x -> r = Ok x.
Proof. intros A [y|e] x H; [assumption|]. simpl in H. destruct (artefact e); discriminate. Qed.

Lemma add_val_typed : forall L s v x, plain_spec s ->
  (forall t, p_typ s = TList t -> forall e, v <> VDict e) ->
  add_val (lib_step L) s v = Ok (Some x) -> x <> VNone -> has_type (p_typ s) x.
Proof.
  intros L s v x Hp Hd H Hx. unfold add_val in H.
  destruct (match v with VList [] | VList (VNone :: _) => true | _ => false end && negb (p_null s)); [discriminate|].
  destruct Hp as [[Ht Hde]|[Ht Hde]].
  - rewrite Hde in H. destruct Ht as [Ht|[Ht|Ht]]; rewrite Ht in *.
    + destruct v; simpl in H; try discriminate; injection H as <-; try congruence; constructor.
    + destruct v; cbn [isinstance] in H; try discriminate; try (injection H as <-; congruence).
      * injection H as <-. constructor.
      * cbn [py_int] in H. injection H as <-. constructor.
      * cbn [py_int] in H. destruct (py_int_str s0) as [z|[]]; try discriminate. injection H as <-. constructor.
    + destruct v; simpl in H; try discriminate; injection H as <-; try congruence; constructor.
  - rewrite Ht in *. specialize (Hd _ eq_refl).
    destruct v as [|b|z|q|t|l|e|c e]; cbn [isinstance] in H; try discriminate.
    + destruct (p_null s); [|discriminate]. injection H as <-. congruence.
    + destruct Hde as [Hde|Hde]; rewrite Hde in H; cbn [lib_step l_deser deser_step sp_split decode_err bind] in H;
        injection H as <-; apply has_type_strs.
    + assert (G : forall y, (do xs <- py_iter y; if forallb (fun z => isinstance z TStr) xs then Ok (Some y) else Err EDecodeError) = Ok (Some x) ->
                  has_type (TList TStr) y \/ (exists l', y = VList l') -> has_type (TList TStr) x).
      { intros y Hy Hyt. destruct (py_iter y) as [xs|] eqn:Ey; [|discriminate]. cbn [bind] in Hy.
        destruct (forallb _ xs) eqn:Ef; [|discriminate]. injection Hy as <-.
        destruct Hyt as [Hyt|[l' ->]]; [assumption|]. simpl in Ey. injection Ey as <-.
        constructor. intros z Hz. rewrite forallb_forall in Ef. apply Ef in Hz. destruct z; try discriminate. eauto. }
      destruct Hde as [Hde|Hde]; rewrite Hde in H; cbn [lib_step l_deser deser_step] in H.
      * cbn [decode_err bind] in H. eapply G; [exact H|]. right. eauto.
      * destruct (decode_err _) as [y|] eqn:Ey in H; [|discriminate]. cbn [bind] in H. apply decode_err_ok in Ey.
        eapply G; [exact H|]. destruct l as [|z [|z' l]].
        -- injection Ey as <-. eauto.
        -- left. eapply sp_split_typed. eassumption.
        -- injection Ey as <-. eauto.
    + exfalso. eapply Hd. reflexivity.
Qed.

Lemma fd_entry_typed : forall L P k v x s, param_spec P k = Some s -> plain_spec s ->
  (forall t, p_typ s = TList t -> forall e, v <> VDict e) ->
  fd_entry (lib_step L) P k v = Ok (Some x) -> x <> VNone -> has_type (p_typ s) x.
Proof.
  intros L P k v x s Hs Hp Hd H Hx. rewrite fd_entry_spec, Hs in H. destruct (is_blank v); [discriminate|].
  destruct (dget P k); [eapply add_val_typed; eassumption|].
  destruct (dget P (before_hash k)); [eapply add_val_typed; eassumption|].
  destruct v; try (eapply add_val_typed; eassumption). injection H as <-. congruence.
Qed.

(** no dictionary is given where a list is declared *)
Lemma well_typed_put : forall L P d k v o, well_typed_plain P d ->
  (forall s t, param_spec P k = Some s -> p_typ s = TList t -> forall e, v <> VDict e) ->
  fd_entry (lib_step L) P k v = Ok o -> well_typed_plain P (put d k o).
Proof.
  intros L P d k v o Hd Hl H k' s x Hs Hp Hx Hn. rewrite dget_put in Hx.
  destruct (ueqb k' k) eqn:E.
  - apply ueqb_eq in E. subst k'. destruct o as [y|].
    + injection Hx as <-. eapply fd_entry_typed; try eassumption. intros t Ht. exact (Hl _ _ Hs Ht).
    + eapply Hd; eassumption.
  - eapply Hd; eassumption.
Qed.

Lemma from_items_typed : forall L P l d, well_typed_plain P d -> no_dict_for_list P l ->
  well_typed_plain P (fst (from_items (lib_step L) P d l)).
Proof.
  intros L P. induction l as [|[k v] l IH]; intros d Hd Hl; [assumption|].
  rewrite from_items_cons. destruct (fd_entry (lib_step L) P k v) as [o|e] eqn:E; [|assumption].
  apply IH.
  - eapply well_typed_put; [assumption| |exact E]. intros s t Hs Ht e He. subst v.
    eapply Hl; [left; reflexivity|exact Hs|exact Ht].
  - intros k' e s t Hin. apply (Hl k' e s t). right. assumption.
Qed.

Lemma c05_from_dict : forall C d l, well_typed_plain (cd_param C) d -> no_dict_for_list (cd_param C) l ->
  well_typed_plain (cd_param C) (fst (from_dict C d (VDict l))).
Proof. intros. rewrite from_dict_VDict, the_lib_step. apply from_items_typed; assumption. Qed.

Lemma c05_construct : forall C kw d, well_typed_plain (cd_param C) (cd_default C) ->
  no_dict_for_list (cd_param C) kw -> construct C kw = Ok d -> well_typed_plain (cd_param C) d.
Proof.
  intros C kw d Hd Hl H. unfold construct, construct_gen in H. destruct (dhas kw (u "self")); [discriminate|].
  apply ret_msg_ok in H.
  assert (G : well_typed_plain (cd_param C) (match dget kw (u "set_defaults") with
                | Some b => if truthy b then cd_default C else []
                | None => cd_default C
                end)).
  { destruct (dget kw (u "set_defaults")) as [b|]; [|assumption]. destruct (truthy b); [assumption|].
    intros k s v _ _ Hv. discriminate. }
  rewrite the_lib_step in H. apply (f_equal fst) in H. cbn [fst] in H. rewrite <- H.
  apply from_items_typed; [assumption|]. intros k e s t Hin. apply (Hl k e s t). unfold ddel in Hin. apply filter_In in Hin. tauto.
Qed.

Lemma c05_from_json : forall C d s l, well_typed_plain (cd_param C) d ->
  json_loads s = Ok (VDict l) -> no_dict_for_list (cd_param C) l ->
  well_typed_plain (cd_param C) (fst (from_json C d s)).
Proof.
  intros C d s l Hd Hj Hl. unfold from_json, from_json_gen. rewrite Hj. apply c05_from_dict; assumption.
Qed.

(** _add_value never raises KeyError (so __setitem__ catches only the missing table entry) *)
Definition nk {A} (r : res A) : Prop := r <> Err EKeyError.
Lemma nk_ok : forall A (x : A), nk (Ok x).
Proof. intros A x H. discriminate. Qed.
Lemma nk_err : forall A e, e <> EKeyError -> nk (A := A) (Err e).
Proof. intros A e H H1. congruence. Qed.
Lemma nk_bind : forall A B (r : res A) (f : A -> res B), nk r -> (forall x, nk (f x)) -> nk (bind r f).
Proof. intros A B [x|e] f H H1; simpl; [apply H1|]. intro Hc. apply H. congruence. Qed.
Lemma nk_decode : forall A (r : res A), nk (decode_err r).
Proof. intros A [x|e]; [apply nk_ok|]. destruct e; simpl; apply nk_err; discriminate. Qed.
Lemma nk_iter : forall v, nk (py_iter v).
Proof. intros []; simpl; try apply nk_ok; apply nk_err; discriminate. Qed.
#[local] Hint Resolve nk_ok nk_decode nk_iter : core.
#[local] Hint Extern 1 (nk (Err _)) => (apply nk_err; discriminate) : core.
#[local] Hint Extern 2 (nk (bind _ _)) => (apply nk_bind; [|intros ?]) : core.

Lemma add_val_nk : forall L s v, nk (add_val L s v).
Proof.
  intros L s v. unfold add_val.
  destruct (match v with VList [] | VList (VNone :: _) => true | _ => false end && negb (p_null s)); [auto|].
  assert (G : forall t, nk
    match v with
    | VNone => Ok (Some VNone)
    | VBool b => match t with TBool => Ok (Some v) | _ => Err EValueError end
    | _ => if isinstance v t then Ok (Some v)
           else match p_deser s with
                | Some d => do x <- decode_err (l_deser L d v Fdict) ; Ok (Some x)
                | None => match t with
                          | TInt => match py_int v with
                                    | Ok z => Ok (Some (VInt z))
                                    | Err EValueError | Err ETypeError => Err EValueError
                                    | Err e => Err e
                                    end
                          | TMsg C_Message => match v with
                                              | VDict _ | VStr _ => Ok (Some v)
                                              | _ => Err EValueError
                                              end
                          | _ => Err EValueError
                          end
                end
    end).
  { intro t.
    assert (Hpi : forall w, nk (py_int w)).
    { intros []; simpl; auto. unfold py_int_str. destruct (forallb is_ascii s0); auto.
      destruct (strip s0) as [|c r]; auto. destruct (c =? 45); [destruct (digits_us _ _ _); auto|].
      destruct (c =? 43); destruct (digits_us _ _ _); auto. }
    assert (H1 : nk (if isinstance v t then Ok (Some v)
           else match p_deser s with
                | Some d => do x <- decode_err (l_deser L d v Fdict) ; Ok (Some x)
                | None => match t with
                          | TInt => match py_int v with
                                    | Ok z => Ok (Some (VInt z))
                                    | Err EValueError | Err ETypeError => Err EValueError
                                    | Err e => Err e
                                    end
                          | TMsg C_Message => match v with
                                              | VDict _ | VStr _ => Ok (Some v)
                                              | _ => Err EValueError
                                              end
                          | _ => Err EValueError
                          end
                end)).
    { destruct (isinstance v t); [auto|]. destruct (p_deser s); [auto|].
      destruct t; auto.
      - specialize (Hpi v). destruct (py_int v) as [z|e]; [auto|]. destruct e; auto; exfalso; apply Hpi; reflexivity.
      - destruct c; auto. destruct v; auto. }
    destruct v; auto. destruct t; auto. }
  destruct (p_typ s) as [| | | |c|t];
    [exact (G TStr)|exact (G TInt)|exact (G TBool)|exact (G TDict)|exact (G (TMsg c))|].
  clear G. assert (Hn : forall w, nk (if isinstance w t
       then match t with
            | TMsg _ => Ok (Some (VList [w]))
            | _ => match p_deser s with
                   | Some d => do x <- decode_err (l_deser L d w Furl) ; Ok (Some x)
                   | None => Err OutOfModel
                   end
            end
       else match w with
            | VList _ =>
                do v1 <- match p_deser s with Some d => decode_err (l_deser L d w Fdict) | None => Ok w end ;
                match t with
                | TMsg c =>
                    do ms <- decode_err
                           (do xs <- py_iter v1 ;
                            mapM (fun x => do it <- items x ; do m <- l_mk L c it ; Ok (VMsg c m)) xs) ;
                    Ok (Some (VList ms))
                | _ => do xs <- py_iter v1 ;
                       if forallb (fun x => isinstance x t) xs then Ok (Some v1) else Err EDecodeError
                end
            | VDict _ => match p_deser s with
                         | Some d => do x <- decode_err (l_deser L d w Fdict) ; Ok (Some x)
                         | None => Err EDecodeError
                         end
            | _ => Err EDecodeError
            end)).
  { intro w. destruct (isinstance w t).
    - destruct t; auto; destruct (p_deser s); auto.
    - destruct w; auto.
      + apply nk_bind; [destruct (p_deser s); auto|]. intro v1. destruct t; auto.
        all: apply nk_bind; [auto|]; intro xs; destruct (forallb _ xs); auto.
      + destruct (p_deser s); auto. }
  specialize (Hn v). destruct v; try exact Hn. destruct (p_null s); auto.
Qed.

Lemma param_spec_key : forall P k s, dget P k = Some s -> param_spec P k = Some s.
Proof. intros P k s H. unfold param_spec. rewrite H. reflexivity. Qed.

Lemma c05_setitem : forall C d k v, well_typed_plain (cd_param C) d -> In k (map fst (cd_param C)) ->
  no_dict_for_list (cd_param C) [(k, v)] -> well_typed_plain (cd_param C) (fst (setitem C d k v)).
Proof.
  intros C d k v Hd Hk Hl. apply dget_Some_iff in Hk. destruct Hk as [s Hs]. unfold setitem. rewrite Hs.
  assert (Hne : plain_spec s -> (forall t, p_typ s = TList t -> forall e, v <> VDict e)).
  { intros _ t Ht e He. subst v. eapply Hl; [left; reflexivity|apply param_spec_key; exact Hs|exact Ht]. }
  assert (G : forall x, (plain_spec s -> x <> VNone -> has_type (p_typ s) x) -> well_typed_plain (cd_param C) (dset d k x)).
  { intros x Hx k' s' v' Hs' Hp Hv Hn. rewrite dget_dset in Hv. destruct (ueqb k' k) eqn:E.
    - apply ueqb_eq in E. subst k'. rewrite (param_spec_key _ _ _ Hs) in Hs'. injection Hs' as <-. injection Hv as <-. auto.
    - eapply Hd; eassumption. }
  rewrite the_lib_step. destruct (add_val (lib_step (lib_n 11)) s v) as [[x|]|e] eqn:E.
  - apply G. intros Hp Hx. eapply add_val_typed; eauto.
  - assumption.
  - destruct e; try assumption. exfalso. revert E. apply add_val_nk.
Qed.

(** ** the library tables *)
Definition plain_specb (s : pspec) : bool :=
  match p_typ s, p_deser s with
  | (TStr | TInt | TBool), None => true
  | TList TStr, Some (DeList | DeSpSep) => true
  | _, _ => false
  end.
Lemma plain_specb_ok : forall s, plain_specb s = true <-> plain_spec s.
Proof.
  intro s. unfold plain_specb, plain_spec. split.
  - destruct (p_typ s) as [| | | |c|[| | | |c|t]]; destruct (p_deser s) as [[]|]; intro H; try discriminate; auto 10.
  - intros [[[H|[H|H]] H1]|[H [H1|H1]]]; rewrite H, H1; reflexivity.
Qed.

Definition timeb (s : pspec) : bool := match p_deser s with Some (DeTime | DeDate) => true | _ => false end.
Definition plain_typeb (t : vtyp) : bool :=
  match t with TStr | TInt | TBool | TList TStr => true | _ => false end.

Lemma lib_tables_plain : forall c k s, In (k, s) (cd_param (cdef c)) -> plain_type (p_typ s) ->
  plain_spec s \/ (p_typ s = TStr /\ (p_deser s = Some DeTime \/ p_deser s = Some DeDate)).
Proof.
  assert (H : forallb (fun c => forallb (fun ks =>
     negb (plain_typeb (p_typ (snd ks))) || plain_specb (snd ks) ||
     (match p_typ (snd ks) with TStr => true | _ => false end && timeb (snd ks))) (cd_param (cdef c))) all_cls = true)
    by (vm_compute; reflexivity).
  intros c k s Hin Ht. rewrite forallb_forall in H.
  assert (Hc : In c all_cls) by (destruct c; vm_compute; repeat (first [left; reflexivity | right])).
  specialize (H c Hc). rewrite forallb_forall in H. specialize (H (k, s) Hin). cbn [snd] in H.
  apply orb_true_iff in H. destruct H as [H|H].
  - apply orb_true_iff in H. destruct H as [H|H].
    + exfalso. destruct Ht as [Ht|[Ht|[Ht|Ht]]]; rewrite Ht in H; discriminate.
    + left. apply plain_specb_ok. assumption.
  - right. apply andb_true_iff in H. destruct H as [H1 H2]. destruct (p_typ s); try discriminate.
    split; [reflexivity|]. unfold timeb in H2. destruct (p_deser s) as [[]|]; try discriminate; auto.
Qed.

(** ** C06 *)
Lemma fu_entry_typed : forall L P k vals s x, param_spec P k = Some s -> plain_spec s ->
  p_typ s = TStr \/ p_typ s = TList TStr -> fu_entry (lib_step L) P k vals = Ok x -> has_type (p_typ s) x.
Proof.
  intros L P k vals s x Hs Hp Ht H. unfold fu_entry in H. rewrite <- param_spec_spec_of, Hs in H.
  destruct Hp as [[Ht' Hd]|[Ht' Hd]].
  - destruct Ht as [Ht|Ht]; [|destruct Ht' as [Ht'|[Ht'|Ht']]; congruence].
    rewrite Ht, Hd in *. destruct vals as [|y [|z vals]]; try discriminate. injection H as <-. constructor.
  - rewrite Ht' in *. destruct Hd as [Hd|Hd]; rewrite Hd in H;
      cbn [lib_step l_deser deser_step sp_split] in H; injection H as <-; apply has_type_strs.
Qed.

Lemma from_fields_typed : forall L P l d, text_typed P d -> text_typed P (fst (from_fields (lib_step L) P d l)).
Proof.
  intros L P. induction l as [|[k vals] l IH]; intros d Hd; [assumption|]. cbn [from_fields].
  destruct (fu_entry (lib_step L) P k vals) as [x|e] eqn:E; [|assumption]. apply IH.
  intros k' s v Hs Hp Ht Hv. rewrite dget_dset in Hv. destruct (ueqb k' k) eqn:Ek.
  - apply ueqb_eq in Ek. subst k'. injection Hv as <-. eapply fu_entry_typed; eassumption.
  - eapply Hd; eassumption.
Qed.

Lemma c06 : forall C d q, text_typed (cd_param C) d -> text_typed (cd_param C) (fst (from_urlencoded C d q)).
Proof.
  intros C d q Hd. unfold from_urlencoded, from_qs. rewrite the_lib_step.
  destruct (parse_qs q) as [|f fs].
  - destruct q; assumption.
  - apply from_fields_typed. assumption.
Qed.

(** ** C08 *)
Lemma not_blank_msg : forall c d, ~ blank (VMsg c d).
Proof. intros c d [H|H]; discriminate. Qed.

Lemma split_not_blank : forall s, s <> [] -> ~ blank (VList (map VStr (split_on 32 s))).
Proof.
  intros s Hs [H|H]; [discriminate|]. injection H as H. pose proof (split_join 32 s) as Hj.
  destruct (split_on 32 s) as [|x [|y r]]; try discriminate. injection H as ->. cbn in Hj. congruence.
Qed.

Lemma deser_cls_msg : forall L c v f x, deser_cls L c v f = Ok x -> exists d, x = VMsg c d.
Proof.
  intros L c v f x H. unfold deser_cls in H. destruct (ret_msg _) as [d|]; [|discriminate].
  cbn [bind] in H. injection H as <-. eauto.
Qed.

Lemma dumps_then : forall A v (g : ustr -> res A) x, (do t <- json_dumps v; g t) = Ok x -> exists t, g t = Ok x.
Proof. intros A v g x H. destruct (json_dumps v); [|discriminate]. cbn [bind] in H. eauto. Qed.

Lemma de_msg_msg : forall L c v f x, de_msg L c v f = Ok x -> exists c' d, x = VMsg c' d.
Proof.
  intros L c v f x H. unfold de_msg in H.
  assert (G : forall w g, deser_cls L c w g = Ok x -> exists c' d, x = VMsg c' d).
  { intros w g Hg. apply deser_cls_msg in Hg. destruct Hg as [d ->]. eauto. }
  destruct v; try (exact (G _ _ H)); try (destruct f; [exact (G _ _ H)| |]; apply dumps_then in H; destruct H as [t H]; exact (G _ _ H)).
  injection H as <-. eauto.
Qed.

Lemma de_link_msg : forall L v f x, de_link L v f = Ok x -> exists c' d, x = VMsg c' d.
Proof.
  intros L v f x H. unfold de_link in H.
  assert (G : forall w g, deser_cls L C_oidc_Link w g = Ok x -> exists c' d, x = VMsg c' d).
  { intros w g Hg. apply deser_cls_msg in Hg. destruct Hg as [d ->]. eauto. }
  destruct v; try (exact (G _ _ H)); try (destruct f; [exact (G _ _ H)| |]; apply dumps_then in H; destruct H as [t H]; exact (G _ _ H)).
  destruct (subclass c C_oidc_Link).
  - injection H as <-. eauto.
  - destruct f; [exact (G _ _ H)| |]; apply dumps_then in H; destruct H as [t H]; exact (G _ _ H).
Qed.

Lemma de_one_of_msg : forall L c v f x, de_one_of L c v f = Ok x -> exists d, x = VMsg c d.
Proof.
  intros L c v f x H. unfold de_one_of in H.
  destruct (match f with Furl => Ok v | _ => dumps_unless_str v end) as [w|]; [|discriminate]. cbn [bind] in H.
  destruct f; destruct (deser_cls L c w _) as [y|e] eqn:E in H;
    try (injection H as ->; eapply deser_cls_msg; eassumption);
    destruct e; try discriminate;
    destruct (deser_cls L c w _) as [y|e] eqn:E2 in H;
    try (injection H as ->; eapply deser_cls_msg; eassumption); destruct e; discriminate.
Qed.

Lemma jtext_nonempty : forall v, jerr v = None -> jtext v <> [].
Proof.
  intros v H. destruct v as [|[]|z|q|s|l|d|c d]; simpl in H; try discriminate; simpl.
  - destruct z; simpl; try discriminate. apply dec_N_nonempty.
  - destruct (Float.float_repr q) as [t|] eqn:E; [|discriminate]. destruct (JsonLemmas.repr_head q t E) as (c & r & -> & _). discriminate.
Qed.

Lemma dumps_nonempty : forall v t, json_dumps v = Ok t -> t <> [].
Proof.
  intros v t H. unfold json_dumps in H. destruct (jerr v) eqn:E; [discriminate|]. injection H as <-.
  apply jtext_nonempty. assumption.
Qed.

Lemma mapM_msgs_not_blank : forall A (f : A -> res value) l ys,
  (forall x y, f x = Ok y -> exists c d, y = VMsg c d) -> mapM f l = Ok ys -> ~ blank (VList ys).
Proof.
  intros A f l ys Hf H [Hb|Hb]; [discriminate|]. injection Hb as ->. apply mapM_ok in H.
  inversion H as [|x y l' r' Hxy Hr]; subst. apply Hf in Hxy. destruct Hxy as [c [d Hxy]]. discriminate.
Qed.

Lemma stamp_cases : forall b v x, stamp_deser b v = Ok x -> x = v \/ exists q, x = VFlt q.
Proof.
  intros b v x H. unfold stamp_deser in H. destruct v; try discriminate; try (left; injection H as <-; reflexivity).
  destruct (if b then from_iso_date s else from_iso_time s) as [z|]; [|discriminate]. cbn [bind] in H. injection H as <-. eauto.
Qed.
Lemma deser_not_blank : forall L k v f x, k <> DeJson -> ~ blank v ->
  deser_step L k v f = Ok x -> ~ blank x.
Proof.
  intros L k v f x Hk Hv H.
  assert (Hsp : forall w y, sp_split w = Ok y -> w <> VStr [] -> ~ blank y).
  { intros w y Hy Hw. destruct w; try discriminate. injection Hy as <-. apply split_not_blank. congruence. }
  assert (Hv1 : v <> VStr []) by (intro; apply Hv; left; assumption).
  assert (Hv2 : forall w, v = VList [w] -> w <> VStr []) by (intros w -> ->; apply Hv; right; reflexivity).
  destruct k; cbn [deser_step] in H.
  - destruct f; try (injection H as <-; assumption).
    destruct v; try (injection H as <-; intros [Hb|Hb]; discriminate); [eapply Hsp; eassumption|].
    destruct l as [|w [|w' l]]; try (injection H as <-; intros [Hb|Hb]; discriminate).
    eapply Hsp; [exact H|apply Hv2; reflexivity].
  - destruct v; try (injection H as <-; assumption); [eapply Hsp; eassumption|].
    destruct l as [|w [|w' l]]; try (injection H as <-; assumption). eapply Hsp; [exact H|apply Hv2; reflexivity].
  - congruence.
  - apply de_msg_msg in H. destruct H as [c' [d ->]]. apply not_blank_msg.
  - assert (G : (do xs <- py_iter v; do ys <- mapM (fun x => de_msg L C_Message x f) xs; Ok (VList ys)) = Ok x -> ~ blank x).
    { intro Hg. destruct (py_iter v) as [xs|]; [|discriminate]. cbn [bind] in Hg.
      destruct (mapM _ xs) as [ys|] eqn:E; [|discriminate]. cbn [bind] in Hg. injection Hg as <-.
      eapply mapM_msgs_not_blank; [|exact E]. intros y z Hz. exact (de_msg_msg _ _ _ _ _ Hz). }
    destruct v; try (apply G; assumption). destruct (construct_gen _ _ _); [|discriminate]. cbn [bind] in H. injection H as <-.
    intros [Hb|Hb]; discriminate.
  - apply de_one_of_msg in H. destruct H as [d ->]. apply not_blank_msg.
  - assert (G : forall w g, deser_cls L c w g = Ok x -> ~ blank x).
    { intros w g Hg. apply deser_cls_msg in Hg. destruct Hg as [d ->]. apply not_blank_msg. }
    destruct f.
    + destruct (dumps_unless_str v); [|discriminate]. cbn [bind] in H. eauto.
    + destruct (match v with VStr s => json_loads s | _ => Ok v end) as [w|]; [|discriminate]. cbn [bind] in H. eauto.
    + destruct (dumps_unless_str v); [|discriminate]. cbn [bind] in H. eauto.
  - unfold dumps_unless_str in H.
    assert (G : (do t <- json_dumps v; Ok (VStr t)) = Ok x -> ~ blank x).
    { intro Hg. destruct (json_dumps v) as [t|] eqn:E; [|discriminate]. cbn [bind] in Hg. injection Hg as <-.
      apply dumps_nonempty in E. intros [Hb|Hb]; congruence. }
    destruct v; try (apply G; assumption). injection H as <-. assumption.
  - destruct v; try (apply de_link_msg in H; destruct H as [c' [d' ->]]; apply not_blank_msg).
    destruct (mapM _ l) as [ys|] eqn:E; [|discriminate]. cbn [bind] in H. injection H as <-.
    eapply mapM_msgs_not_blank; [|exact E]. intros y z Hz. exact (de_link_msg _ _ _ _ Hz).
  - apply de_msg_msg in H. destruct H as [c' [d ->]]. apply not_blank_msg.
  - assert (G : (do xs <- py_iter v; do ys <- mapM (fun x => de_one_of L C_ida_Evidence x f) xs; Ok (VList ys)) = Ok x -> ~ blank x).
    { intro Hg. destruct (py_iter v) as [xs|]; [|discriminate]. cbn [bind] in Hg.
      destruct (mapM _ xs) as [ys|] eqn:E; [|discriminate]. cbn [bind] in Hg. injection Hg as <-.
      eapply mapM_msgs_not_blank; [|exact E]. intros y z Hz. destruct (de_one_of_msg _ _ _ _ _ Hz) as [d ->]. eauto. }
    destruct v; try (apply G; assumption). destruct (construct_gen _ _ _); [|discriminate]. cbn [bind] in H. injection H as <-.
    intros [Hb|Hb]; discriminate.
  - apply stamp_cases in H. destruct H as [->|[q ->]]; [assumption|]. intros [Hb|Hb]; discriminate.
  - apply stamp_cases in H. destruct H as [->|[q ->]]; [assumption|]. intros [Hb|Hb]; discriminate.
Qed.

Lemma add_val_not_blank : forall L s v x, p_deser s <> Some DeJson -> ~ blank v ->
  add_val (lib_step L) s v = Ok (Some x) -> ~ blank x.
Proof.
  intros L s v x Hd Hv H. unfold add_val in H.
  destruct (match v with VList [] | VList (VNone :: _) => true | _ => false end && negb (p_null s)); [discriminate|].
  assert (Hds : forall d f y, p_deser s = Some d -> decode_err (l_deser (lib_step L) d v f) = Ok y -> ~ blank y).
  { intros d f y Hs Hy. apply decode_err_ok in Hy. eapply deser_not_blank; [|exact Hv|exact Hy]. congruence. }
  assert (Hnone : ~ blank VNone) by (intros [Hb|Hb]; discriminate).
  assert (G : forall t, 
    match v with
    | VNone => Ok (Some VNone)
    | VBool b => match t with TBool => Ok (Some v) | _ => Err EValueError end
    | _ => if isinstance v t then Ok (Some v)
           else match p_deser s with
                | Some d => do x <- decode_err (l_deser (lib_step L) d v Fdict) ; Ok (Some x)
                | None => match t with
                          | TInt => match py_int v with
                                    | Ok z => Ok (Some (VInt z))
                                    | Err EValueError | Err ETypeError => Err EValueError
                                    | Err e => Err e
                                    end
                          | TMsg C_Message => match v with
                                              | VDict _ | VStr _ => Ok (Some v)
                                              | _ => Err EValueError
                                              end
                          | _ => Err EValueError
                          end
                end
    end = Ok (Some x) -> ~ blank x).
  { intros t Hg.
    assert (G1 : (if isinstance v t then Ok (Some v)
           else match p_deser s with
                | Some d => do x <- decode_err (l_deser (lib_step L) d v Fdict) ; Ok (Some x)
                | None => match t with
                          | TInt => match py_int v with
                                    | Ok z => Ok (Some (VInt z))
                                    | Err EValueError | Err ETypeError => Err EValueError
                                    | Err e => Err e
                                    end
                          | TMsg C_Message => match v with
                                              | VDict _ | VStr _ => Ok (Some v)
                                              | _ => Err EValueError
                                              end
                          | _ => Err EValueError
                          end
                end) = Ok (Some x) -> ~ blank x).
    { clear Hg. intro Hg. destruct (isinstance v t); [injection Hg as <-; assumption|].
      destruct (p_deser s) as [d|].
      - destruct (decode_err _) as [y|] eqn:E in Hg; [|discriminate]. cbn [bind] in Hg. injection Hg as <-.
        eapply Hds; [reflexivity|exact E].
      - destruct t; try discriminate.
        + destruct (py_int v) as [z|e]; [|destruct e; discriminate]. injection Hg as <-. intros [Hb|Hb]; discriminate.
        + destruct c; try discriminate. destruct v; try discriminate; injection Hg as <-; assumption. }
    destruct v; try (apply G1; exact Hg).
    - injection Hg as <-. assumption.
    - destruct t; try discriminate. injection Hg as <-. assumption. }
  destruct (p_typ s) as [| | | |c|t];
    [exact (G TStr H)|exact (G TInt H)|exact (G TBool H)|exact (G TDict H)|exact (G (TMsg c) H)|].
  clear G. assert (Hn : (if isinstance v t
       then match t with
            | TMsg _ => Ok (Some (VList [v]))
            | _ => match p_deser s with
                   | Some d => do x <- decode_err (l_deser (lib_step L) d v Furl) ; Ok (Some x)
                   | None => Err OutOfModel
                   end
            end
       else match v with
            | VList _ =>
                do v1 <- match p_deser s with Some d => decode_err (l_deser (lib_step L) d v Fdict) | None => Ok v end ;
                match t with
                | TMsg c =>
                    do ms <- decode_err
                           (do xs <- py_iter v1 ;
                            mapM (fun x => do it <- items x ; do m <- l_mk (lib_step L) c it ; Ok (VMsg c m)) xs) ;
                    Ok (Some (VList ms))
                | _ => do xs <- py_iter v1 ;
                       if forallb (fun x => isinstance x t) xs then Ok (Some v1) else Err EDecodeError
                end
            | VDict _ => match p_deser s with
                         | Some d => do x <- decode_err (l_deser (lib_step L) d v Fdict) ; Ok (Some x)
                         | None => Err EDecodeError
                         end
            | _ => Err EDecodeError
            end) = Ok (Some x) -> ~ blank x).
  { intro Hg. destruct (isinstance v t) eqn:Ei.
    - assert (G2 : match p_deser s with
                   | Some d => do x <- decode_err (l_deser (lib_step L) d v Furl) ; Ok (Some x)
                   | None => Err OutOfModel
                   end = Ok (Some x) -> ~ blank x).
      { intro Hy. destruct (p_deser s) as [d|]; [|discriminate].
        destruct (decode_err _) as [y|] eqn:E in Hy; [|discriminate]. cbn [bind] in Hy. injection Hy as <-.
        eapply Hds; [reflexivity|exact E]. }
      destruct t; try (apply G2; exact Hg). injection Hg as <-. destruct v; try discriminate.
      intros [Hb|Hb]; discriminate.
    - destruct v as [|b|z|q|s'|l|e|c e]; try discriminate.
      + destruct (match p_deser s with Some d => decode_err (l_deser (lib_step L) d (VList l) Fdict) | None => Ok (VList l) end)
          as [v1|] eqn:E1; [|discriminate]. cbn [bind] in Hg.
        assert (Hv1 : ~ blank v1).
        { destruct (p_deser s) as [d|]; [eapply Hds; [reflexivity|exact E1]|]. injection E1 as <-. assumption. }
        assert (G3 : (do xs <- py_iter v1; if forallb (fun x => isinstance x t) xs then Ok (Some v1) else Err EDecodeError) = Ok (Some x) -> ~ blank x).
        { intro Hy. destruct (py_iter v1); [|discriminate]. cbn [bind] in Hy. destruct (forallb _ _); [|discriminate].
          injection Hy as <-. assumption. }
        destruct t; try (apply G3; exact Hg).
        destruct (decode_err _) as [ms|] eqn:E in Hg; [|discriminate]. cbn [bind] in Hg. injection Hg as <-.
        apply decode_err_ok in E. destruct (py_iter v1); [|discriminate]. cbn [bind] in E.
        eapply mapM_msgs_not_blank; [|exact E]. intros y z Hz. cbv beta in Hz.
        destruct (items y); [|discriminate]. cbn [bind] in Hz. destruct (l_mk _ _ _); [|discriminate].
        cbn [bind] in Hz. injection Hz as <-. eauto.
      + destruct (p_deser s) as [d|]; [|discriminate].
        destruct (decode_err _) as [y|] eqn:E in Hg; [|discriminate]. cbn [bind] in Hg. injection Hg as <-.
        eapply Hds; [reflexivity|exact E]. }
  destruct v; try (apply Hn; exact H). destruct (p_null s); [|discriminate]. injection H as <-. assumption.
Qed.

Lemma param_spec_In : forall P k s, param_spec P k = Some s -> exists k', In (k', s) P.
Proof.
  intros P k s H. unfold param_spec in H.
  destruct (dget P k) eqn:E1; [injection H as <-; apply dget_In in E1; eauto|].
  destruct (dget P (before_hash k)) eqn:E2; [injection H as <-; apply dget_In in E2; eauto|].
  apply dget_In in H. eauto.
Qed.

Lemma fd_entry_not_blank : forall L P k v x, no_json_specs P -> fd_entry (lib_step L) P k v = Ok (Some x) -> ~ blank x.
Proof.
  intros L P k v x HP H. rewrite fd_entry_spec in H. destruct (is_blank v) eqn:Eb; [discriminate|].
  apply is_blank_false in Eb. destruct (param_spec P k) as [s|] eqn:Es.
  - destruct (param_spec_In _ _ _ Es) as [k' Hin]. apply HP in Hin.
    destruct (dget P k); [eapply add_val_not_blank; eassumption|].
    destruct (dget P (before_hash k)); [eapply add_val_not_blank; eassumption|].
    destruct v; try (eapply add_val_not_blank; eassumption). injection H as <-. assumption.
  - injection H as <-. assumption.
Qed.

Lemma from_items_no_blanks : forall L P l d, no_json_specs P -> no_blanks d ->
  no_blanks (fst (from_items (lib_step L) P d l)).
Proof.
  intros L P l. induction l as [|[k v] l IH]; intros d HP Hd; [assumption|]. rewrite from_items_cons.
  destruct (fd_entry (lib_step L) P k v) as [o|e] eqn:E; [|assumption]. apply IH; [assumption|].
  intros k' x Hx. rewrite dget_put in Hx. destruct (ueqb k' k).
  - destruct o as [y|].
    + injection Hx as <-. eapply fd_entry_not_blank; eassumption.
    + eapply Hd. eassumption.
  - eapply Hd. eassumption.
Qed.

Lemma c08_from_dict : forall C d v, no_json_specs (cd_param C) -> no_blanks d ->
  no_blanks (fst (from_dict C d v)).
Proof.
  intros C d v HP Hd. unfold from_dict, from_dict_gen. rewrite the_lib_step. destruct (items v); [|assumption].
  apply from_items_no_blanks; assumption.
Qed.

Lemma c08_from_json : forall C d s, no_json_specs (cd_param C) -> no_blanks d ->
  no_blanks (fst (from_json C d s)).
Proof.
  intros C d s HP Hd. unfold from_json, from_json_gen. destruct (json_loads s); [|assumption].
  apply c08_from_dict; assumption.
Qed.

Lemma c08_construct : forall C kw d, no_json_specs (cd_param C) -> no_blanks (cd_default C) ->
  construct C kw = Ok d -> no_blanks d.
Proof.
  intros C kw d HP Hd H. unfold construct, construct_gen in H. destruct (dhas kw (u "self")); [discriminate|].
  apply ret_msg_ok in H. rewrite the_lib_step in H. apply (f_equal fst) in H. cbn [fst] in H. rewrite <- H.
  apply from_items_no_blanks; [assumption|].
  destruct (dget kw (u "set_defaults")) as [b|]; [|assumption]. destruct (truthy b); [assumption|].
  intros k v Hv. discriminate.
Qed.

(** ** defaults of the library classes *)
Definition has_typeb (t : vtyp) (v : value) : bool :=
  match t, v with
  | TStr, VStr _ | TInt, VInt _ | TBool, VBool _ => true
  | TList TStr, VList l => forallb (fun x => match x with VStr _ => true | _ => false end) l
  | _, _ => false
  end.
Lemma has_typeb_ok : forall t v, has_typeb t v = true -> has_type t v.
Proof.
  intros t v H. destruct t as [| | | |c|[| | | |c|t]]; destruct v; try discriminate; constructor.
  intros x Hx. cbn [has_typeb] in H. rewrite forallb_forall in H. apply H in Hx. destruct x; try discriminate. eauto.
Qed.

Lemma in_all_cls : forall c, In c all_cls.
Proof. destruct c; vm_compute; repeat (first [left; reflexivity | right]). Qed.

Definition typedb (P : dict pspec) (d : dict value) : bool :=
  forallb (fun kv => match param_spec P (fst kv) with
                     | Some s => negb (plain_specb s) || has_typeb (p_typ s) (snd kv)
                     | None => true
                     end) d.
Lemma typedb_ok : forall P d, typedb P d = true -> well_typed_plain P d.
Proof.
  intros P d H k s v Hs Hp Hv _. unfold typedb in H. rewrite forallb_forall in H.
  apply dget_In in Hv. specialize (H (k, v) Hv). cbn [fst snd] in H. rewrite Hs in H.
  apply plain_specb_ok in Hp. rewrite Hp in H. apply has_typeb_ok. assumption.
Qed.
Lemma lib_defaults_typed : forall c, well_typed_plain (cd_param (cdef c)) (cd_default (cdef c)).
Proof.
  assert (H : forallb (fun c => typedb (cd_param (cdef c)) (cd_default (cdef c))) all_cls = true) by (vm_compute; reflexivity).
  intro c. rewrite forallb_forall in H. apply typedb_ok. apply H. apply in_all_cls.
Qed.

Definition blankb (v : value) : bool := match v with VStr [] | VList [VStr []] => true | _ => false end.
Lemma blankb_ok : forall v, blankb v = true <-> blank v.
Proof.
  intro v. unfold blank. split.
  - destruct v as [| | | |[]|[|[| | | |[]| | |] []]| |]; intro H; try discriminate; auto.
  - intros [-> | ->]; reflexivity.
Qed.
Lemma no_blanks_forallb : forall d, forallb (fun kv => negb (blankb (snd kv))) d = true -> no_blanks d.
Proof.
  intros d H k v Hv Hb. rewrite forallb_forall in H. apply dget_In in Hv. apply H in Hv. cbn [snd] in Hv.
  apply blankb_ok in Hb. rewrite Hb in Hv. discriminate.
Qed.
Lemma lib_defaults_no_blanks : forall c, no_blanks (cd_default (cdef c)).
Proof.
  assert (H : forallb (fun c => forallb (fun kv => negb (blankb (snd kv))) (cd_default (cdef c))) all_cls = true) by (vm_compute; reflexivity).
  intro c. rewrite forallb_forall in H. apply no_blanks_forallb. apply H. apply in_all_cls.
Qed.

Definition no_json_specsb (P : dict pspec) : bool :=
  forallb (fun ks => match p_deser (snd ks) with Some DeJson => false | _ => true end) P.
Lemma no_json_specsb_ok : forall P, no_json_specsb P = true -> no_json_specs P.
Proof.
  intros P H k s Hin Hd. unfold no_json_specsb in H. rewrite forallb_forall in H. apply H in Hin.
  cbn [snd] in Hin. rewrite Hd in Hin. discriminate.
Qed.

Lemma undeclared_dget : forall P k, dget P k = None -> dget P (before_hash k) = None -> dget P (u "*") = None ->
  undeclared P k.
Proof.
  intros P k H1 H2 H3. repeat split; apply dget_None; assumption.
Qed.

(** ** joint statements *)
Lemma c05_all : forall C,
  (forall d l, well_typed_plain (cd_param C) d -> no_dict_for_list (cd_param C) l ->
     well_typed_plain (cd_param C) (fst (from_dict C d (VDict l)))) /\
  (forall d s l, well_typed_plain (cd_param C) d -> json_loads s = Ok (VDict l) ->
     no_dict_for_list (cd_param C) l -> well_typed_plain (cd_param C) (fst (from_json C d s))) /\
  (forall kw d, well_typed_plain (cd_param C) (cd_default C) -> no_dict_for_list (cd_param C) kw ->
     construct C kw = Ok d -> well_typed_plain (cd_param C) d) /\
  (forall d k v, well_typed_plain (cd_param C) d -> In k (map fst (cd_param C)) ->
     no_dict_for_list (cd_param C) [(k, v)] -> well_typed_plain (cd_param C) (fst (setitem C d k v))).
Proof.
  intro C. split; [|split; [|split]].
  - apply c05_from_dict.
  - apply c05_from_json.
  - intros. eapply c05_construct; eassumption.
  - apply c05_setitem.
Qed.

Lemma c05_lib : forall c,
  well_typed_plain (cd_param (cdef c)) (cd_default (cdef c)) /\
  forall k s, In (k, s) (cd_param (cdef c)) -> plain_type (p_typ s) ->
    plain_spec s \/ (p_typ s = TStr /\ (p_deser s = Some DeTime \/ p_deser s = Some DeDate)).
Proof. intro c. split; [apply lib_defaults_typed|apply lib_tables_plain]. Qed.

Lemma c08_all : forall C, no_json_specs (cd_param C) ->
  (forall d v, no_blanks d -> no_blanks (fst (from_dict C d v))) /\
  (forall d s, no_blanks d -> no_blanks (fst (from_json C d s))) /\
  (forall kw d, no_blanks (cd_default C) -> construct C kw = Ok d -> no_blanks d).
Proof.
  intros C H. split; [|split]; intros.
  - apply c08_from_dict; assumption.
  - apply c08_from_json; assumption.
  - eapply c08_construct; eassumption.
Qed.
