(** Round trips of messages through JSON and dictionaries. *)
From Coq Require Import List NArith ZArith Bool String Lia.
From Verif Require Import Base.Ustr Base.UstrLemmas Base.Percent Base.PercentLemmas Model.Cls Model.Value Model.Pspec Model.Tables Model.Message Model.Json
  Spec.JsonSpec Spec.MessageSpec Spec.CodecSpec Spec.RoundTripSpec
  Proofs.ValueLemmas Proofs.JsonLemmas Proofs.MessageLemmas Proofs.CodecLemmas Proofs.EncodeLemmas.
Import ListNotations.
Open Scope list_scope.
Open Scope N_scope.

(** ** one entry *)
Definition fd_spec (L : lib) (s : option pspec) (v : value) : res (option value) :=
  match s with None => Ok (Some v) | Some s => add_val L s v end.
Definition sser (s : option pspec) : option serk := match s with Some s => p_ser s | None => None end.

Lemma ser_of_spec : forall P k, ser_of P k = sser (param_spec P k).
Proof.
  intros P k. unfold ser_of, spec_of, param_spec, sser. rewrite before_hash_base.
  destruct (dget P k); [reflexivity|]. destruct (dget P (base_key k)); reflexivity.
Qed.
Lemma fd_of_spec : forall L P k w v, ~ blank w -> (w = VNone -> v = VNone) -> fd_spec L (param_spec P k) w = Ok (Some v) ->
  fd_entry L P k w = Ok (Some v).
Proof.
  intros L P k w v Hb Hn H. rewrite fd_entry_spec. apply is_blank_false in Hb. rewrite Hb. unfold fd_spec in H.
  destruct (param_spec P k) as [s|]; [|exact H].
  destruct (dget P k); [exact H|]. destruct (dget P (before_hash k)); [exact H|].
  destruct w; try exact H. rewrite Hn; reflexivity.
Qed.

Lemma texts_json : forall l, texts l -> json_value (VList (map VStr l)).
Proof. intros l H. constructor. intros x Hx. apply in_map_iff in Hx. destruct Hx as (s & <- & Hs). constructor. apply H, Hs. Qed.
Lemma strs_not_blank : forall l, l <> [[]] -> ~ blank (VList (map VStr l)).
Proof.
  intros l H [E|E]; [discriminate|]. injection E as E. apply H. destruct l as [|s [|]]; try discriminate. injection E as ->. reflexivity.
Qed.
Lemma strs_isinstance : forall l, forallb (fun x => isinstance x TStr) (map VStr l) = true.
Proof. intro l. induction l; [reflexivity|exact IHl]. Qed.
Lemma str_list_add : forall L s l, p_typ s = TList TStr -> l <> [] ->
  add_val L s (VList (map VStr l)) =
  do v1 <- match p_deser s with Some d => decode_err (l_deser L d (VList (map VStr l)) Fdict) | None => Ok (VList (map VStr l)) end ;
  do xs <- py_iter v1 ; if forallb (fun x => isinstance x TStr) xs then Ok (Some v1) else Err EDecodeError.
Proof. intros L s l Ht Hl. unfold add_val. destruct l as [|x l]; [congruence|]. rewrite Ht. reflexivity. Qed.
Lemma join_nonempty : forall l, l <> [] -> l <> [[]] -> join [32] l <> [].
Proof.
  intros [|x [|y l]] H1 H2; [congruence| |].
  - intro E. apply H2. cbn [join] in E. rewrite E. reflexivity.
  - cbn [join]. destruct x; discriminate.
Qed.
Lemma join_scalars : forall l, texts l -> scalars (join [32] l) = true.
Proof.
  intros l H. induction l as [|x [|y l] IH]; [reflexivity|apply H; left; reflexivity|].
  change (join [32] (x :: y :: l)) with (x ++ [32] ++ join [32] (y :: l)). unfold scalars in *. rewrite !forallb_app.
  assert (Hx : forallb scalar x = true) by (apply H; left; reflexivity). rewrite Hx, IH; [reflexivity|].
  intros s Hs. apply H. right. exact Hs.
Qed.

Lemma printable_scalars : forall t, Forall printable t -> scalars t = true.
Proof.
  intros t H. apply forallb_forall. intros c Hc. rewrite Forall_forall in H. specialize (H c Hc). unfold printable in H.
  unfold scalar. lia.
Qed.
Lemma plain_idem : forall s v, plain s v -> ~ blank v /\ json_value v /\ forall m, fd_spec (lib_n (S m)) s v = Ok (Some v).
Proof.
  intros s v H. destruct H as [v Hj Hb|s Hs Ht|s t Ht Hs Hc Hn|s z Ht Hs|s b Ht Hs|s l Ht Hs Hd Hl Hn Hb|s l Ht Hs Hd Hl Hf Hn Hb
                              |s d Ht Hs Hj|s t Ht Hs Hd Hc Hn]; cbn [fd_spec].
  - auto.
  - split; [intros [?|?]; discriminate|]. split; [constructor|]. intro m. unfold add_val.
    destruct (p_typ s) as [| | | |c|t] eqn:Et; try reflexivity. exfalso; eapply Ht; reflexivity.
  - split; [intros [E|E]; congruence|]. split; [constructor; exact Hc|]. intro m. unfold add_val. rewrite Ht. reflexivity.
  - split; [intros [E|E]; congruence|]. split; [constructor|]. intro m. unfold add_val. rewrite Ht. reflexivity.
  - split; [intros [E|E]; congruence|]. split; [constructor|]. intro m. unfold add_val. rewrite Ht. reflexivity.
  - split; [apply strs_not_blank, Hb|]. split; [apply texts_json, Hl|]. intro m. rewrite (str_list_add _ _ _ Ht Hn), Hd.
    cbn [lib_n lib_step l_deser deser_step decode_err bind py_iter]. rewrite strs_isinstance. reflexivity.
  - split; [apply strs_not_blank, Hb|]. split; [apply texts_json, Hl|]. intro m. rewrite (str_list_add _ _ _ Ht Hn), Hd.
    cbn [lib_n lib_step l_deser deser_step]. destruct l as [|x [|y l]]; [congruence| |].
    + cbn [map]. cbn [sp_split]. apply blank_free_iff in Hf. pose proof (join_split 32 [x]) as J.
      cbn [join] in J. rewrite J by (congruence || exact Hf). cbn [map decode_err bind py_iter forallb isinstance andb]. reflexivity.
    + cbn [map decode_err bind py_iter]. change (VStr x :: VStr y :: map VStr l) with (map VStr (x :: y :: l)).
      rewrite strs_isinstance. reflexivity.
  - split; [intros [E|E]; congruence|]. split; [exact Hj|]. intro m. unfold add_val. rewrite Ht. reflexivity.
  - split; [intros [E|E]; congruence|]. split; [constructor; exact Hc|]. intro m. unfold add_val. rewrite Ht, Hd. reflexivity.
Qed.
Lemma json_td_post : forall f v, json_value v -> td_post f v = Ok v.
Proof.
  intros f v H. destruct H; try reflexivity. unfold td_post. destruct l as [|x l]; [reflexivity|].
  destruct x; try reflexivity. pose proof (H _ (or_introl eq_refl)) as G. inversion G.
Qed.
Lemma plain_trip : forall s v, plain s v -> exists w, td_entry to_dict_v (sser s) v = Ok w /\ json_value w /\ ~ blank w /\
  (w = VNone -> v = VNone) /\ forall m, fd_spec (lib_n (S m)) s w = Ok (Some v).
Proof.
  intros s v H. destruct (plain_idem s v H) as (Hb & Hj & Hm).
  assert (Same : sser s = None -> exists w, td_entry to_dict_v (sser s) v = Ok w /\ json_value w /\ ~ blank w /\
    (w = VNone -> v = VNone) /\ forall m, fd_spec (lib_n (S m)) s w = Ok (Some v)).
  { intro E. exists v. rewrite E. cbn [td_entry]. rewrite json_td_post by exact Hj. auto. }
  destruct H as [v Hj' Hb'|s Hs Ht|s t Ht Hs Hc Hn|s z Ht Hs|s b Ht Hs|s l Ht Hs Hd Hl Hn Hbl|s l Ht Hs Hd Hl Hf Hn Hbl
                              |s d Ht Hs Hj'|s t Ht Hs Hd Hc Hn]; try (apply Same; first [reflexivity|exact Hs]); clear Same.
  - exists (VList (map VStr l)). cbn [sser]. rewrite Hs. cbn [td_entry]. rewrite json_td_post by exact Hj. auto.
  - exists (VStr (join [32] l)). cbn [sser]. rewrite Hs. cbn [td_entry ser_dict].
    split; [rewrite sp_join_strs; reflexivity|]. split; [constructor; apply join_scalars, Hl|].
    split; [intros [E|E]; [|discriminate]; injection E as E; exact (join_nonempty l Hn Hbl E)|]. split; [discriminate|].
    intro m. cbn [fd_spec]. unfold add_val. rewrite Ht, Hd. cbn [isinstance andb lib_n lib_step l_deser].
    destruct (list_deser_inverse l Hn Hf (lib_n m)) as (_ & -> & _). reflexivity.
  - destruct Hs as [[Hs Hd]|[Hs Hd]].
    + destruct (json_codec _ Hj) as (t & H1 & H2 & H3). exists (VStr t). cbn [sser]. rewrite Hs. cbn [td_entry ser_dict].
      rewrite H1. split; [reflexivity|]. split; [constructor; apply printable_scalars, H2|].
      split; [intros [E|E]; [|discriminate]; injection E as ->; discriminate|]. split; [discriminate|].
      intro m. cbn [fd_spec]. unfold add_val. rewrite Ht, Hd. cbn [isinstance andb lib_n lib_step l_deser deser_step]. rewrite H3. reflexivity.
    + exists (VDict d). cbn [sser]. rewrite Hs. cbn [td_entry ser_dict]. auto.
  - exists (VStr t). cbn [sser]. rewrite Hs. cbn [td_entry ser_dict msg_ser_dict]. auto.
Qed.

(** ** the nesting of the library classes is bounded *)
Definition dclass (s : pspec) : option cls :=
  match p_deser s with
  | Some DeMsg | Some DeMsgList => Some C_Message
  | Some (DeMsgCls c) | Some (DeOneOf c) | Some (DeJsonCls c) => Some c
  | Some DeLink => Some C_oidc_Link
  | Some DeEvidenceList => Some C_ida_Evidence
  | _ => None
  end.
Fixpoint deepok (m : nat) (c : cls) : bool :=
  match m with
  | O => false
  | S m => forallb (fun ks => match dclass (snd ks) with Some c' => deepok m c' | None => true end) (cd_param (cdef c))
  end.
Definition deepspec (m : nat) (s : option pspec) : bool :=
  match s with Some s => match dclass s with Some c => deepok m c | None => true end | None => true end.
Lemma lib_deep : forall c, deepok 11 c = true.
Proof. intro c. destruct c; vm_compute; reflexivity. Qed.
Lemma deepok_spec : forall m c k, deepok (S m) c = true -> deepspec m (param_spec (cd_param (cdef c)) k) = true.
Proof.
  intros m c k H. cbn [deepok] in H. rewrite forallb_forall in H. unfold deepspec.
  destruct (param_spec (cd_param (cdef c)) k) as [s|] eqn:E; [|reflexivity].
  assert (G : exists k', In (k', s) (cd_param (cdef c))).
  { unfold param_spec in E. destruct (dget _ k) eqn:E1; [injection E as <-; exists k; apply dget_In, E1|].
    destruct (dget _ (before_hash k)) eqn:E2; [injection E as <-; eexists; apply dget_In, E2|].
    eexists; apply dget_In, E. }
  destruct G as [k' G]. exact (H _ G).
Qed.

(** ** contents *)
Lemma from_items_all : forall L P r d d0, Forall2 (fun kw kv => fst kw = fst kv /\ fd_entry L P (fst kw) (snd kw) = Ok (Some (snd kv))) r d ->
  from_items L P d0 r = (dupdate d0 d, Ok tt).
Proof.
  intros L P r d d0 H. revert d0. induction H as [|[k w] [k' v] r d [E1 E2] H IH]; intro d0; [reflexivity|].
  cbn [fst snd] in *. subst k'. cbn [from_items]. rewrite E2, IH. reflexivity.
Qed.
Lemma dupdate_nil : forall d : dict value, NoDup (map fst d) -> dupdate [] d = d.
Proof. intros d H. exact (dict_of_nodup d H). Qed.

(** the serialized form [w] of a value [v]: JSON, and read back as [v] *)
Definition trip (m : nat) (s : option pspec) (v w : value) : Prop :=
  td_entry to_dict_v (sser s) v = Ok w /\ json_value w /\ ~ blank w /\ (w = VNone -> v = VNone) /\
  fd_spec (lib_n (S m)) s w = Ok (Some v).

Lemma trip_entries : forall P m d, NoDup (map fst d) -> (forall k v, In (k, v) d -> scalars k = true) ->
  (forall k v, In (k, v) d -> exists w, trip m (param_spec P k) v w) ->
  exists r, mapM (fun kv => match td_entry to_dict_v (ser_of P (fst kv)) (snd kv) with Ok y => Ok (fst kv, y) | Err e => Err e end) d = Ok r /\
    map fst r = map fst d /\ (forall k x, In (k, x) r -> scalars k = true /\ json_value x) /\
    Forall2 (fun kw kv => fst kw = fst kv /\ fd_entry (lib_n (S m)) P (fst kw) (snd kw) = Ok (Some (snd kv))) r d.
Proof.
  intros P m d _. induction d as [|[k v] d IH]; intros Hs Ht.
  - exists []. split; [reflexivity|]. split; [reflexivity|]. split; [intros ? ? []|constructor].
  - destruct IH as (r & H1 & H2 & H3 & H4); [intros; eapply Hs; right; eassumption|intros; apply Ht; right; assumption|].
    destruct (Ht k v (or_introl eq_refl)) as (w & T1 & T2 & T3 & T4 & T5).
    exists ((k, w) :: r). cbn [mapM fst snd map]. rewrite ser_of_spec, T1, H1, H2. split; [reflexivity|]. split; [reflexivity|].
    split.
    + intros k' x [E|E]; [injection E as <- <-|apply H3, E]. split; [eapply Hs; left; reflexivity|exact T2].
    + constructor; [|exact H4]. split; [reflexivity|]. apply fd_of_spec; assumption.
Qed.
Lemma trip_msg : forall c m d, NoDup (map fst d) -> (forall k v, In (k, v) d -> scalars k = true) -> cd_default (cdef c) = [] ->
  (forall k v, In (k, v) d -> exists w, trip m (param_spec (cd_param (cdef c)) k) v w) ->
  exists r, to_dict_v (VMsg c d) = Ok (VDict r) /\ json_value (VDict r) /\
    (forall f, f <> Furl -> exists x, (f = Fdict /\ x = VDict r \/ f = Fjson /\ exists t, json_dumps (VDict r) = Ok t /\ x = VStr t) /\
       deser_cls (lib_n (S m)) c x f = Ok (VMsg c d)).
Proof.
  intros c m d Hn Hs Hd Ht. destruct (trip_entries _ m d Hn Hs Ht) as (r & H1 & H2 & H3 & H4).
  exists r. rewrite to_dict_v_msg. unfold to_dict. rewrite H1. split; [reflexivity|].
  assert (J : json_value (VDict r)) by (constructor; [rewrite H2; exact Hn|exact H3]). split; [exact J|].
  assert (F : from_items (lib_n (S m)) (cd_param (cdef c)) [] r = (d, Ok tt)) by (rewrite (from_items_all _ _ _ _ _ H4), dupdate_nil by exact Hn; reflexivity).
  intros [| |] Hf; [congruence| |].
  - exists (VDict r). split; [left; auto|]. unfold deser_cls. rewrite Hd. cbn [from_dict_gen items]. rewrite F. reflexivity.
  - destruct (json_codec _ J) as (t & J1 & _ & J2). exists (VStr t). split; [right; eauto|]. unfold deser_cls. rewrite Hd.
    cbn [from_json_gen]. rewrite J2. cbn [from_dict_gen items]. rewrite F. reflexivity.
Qed.

Lemma add_msg : forall L s t r, p_typ s = TMsg t ->
  add_val L s (VDict r) = match p_deser s with Some d => do x <- decode_err (l_deser L d (VDict r) Fdict) ; Ok (Some x)
                          | None => add_val L s (VDict r) end.
Proof. intros L s t r H. destruct (p_deser s) eqn:E; [|reflexivity]. unfold add_val. rewrite H, E. reflexivity. Qed.

Lemma settled_fd : forall s v m, canon s v -> settled s v -> ~ blank v /\ fd_spec (lib_n (S m)) s v = Ok (Some v).
Proof.
  intros s v m H Hs. destruct H as [s v H|s c d _ _ _ _ _|s c l _ _ Hl _ _ _].
  - destruct (plain_idem s v H) as (H1 & _ & H2). auto.
  - split; [intros [?|?]; discriminate|]. destruct Hs as (s' & t & E & Ht & Hsub). injection E as <-.
    cbn [fd_spec]. unfold add_val. rewrite Ht. cbn [isinstance andb]. rewrite Hsub. reflexivity.
  - destruct l; [congruence|]. destruct Hs.
Qed.
Lemma again : forall c m d, cd_default (cdef c) = [] -> NoDup (map fst d) ->
  (forall k v, In (k, v) d -> k <> u "self" /\ k <> u "set_defaults" /\ settled (param_spec (cd_param (cdef c)) k) v /\
     canon (param_spec (cd_param (cdef c)) k) v) ->
  construct_gen (lib_n (S m)) (cdef c) d = Ok d.
Proof.
  intros c m d Hd Hn H. unfold construct_gen.
  assert (K : forall k, k = u "self" \/ k = u "set_defaults" -> dget d k = None).
  { intros k Hk. destruct (dget d k) eqn:E; [|reflexivity]. apply dget_In, H in E. destruct E as (E1 & E2 & _). destruct Hk; congruence. }
  unfold dhas. rewrite (K _ (or_introl eq_refl)), (K _ (or_intror eq_refl)), Hd. rewrite ddel_id by (apply dget_None, K; auto).
  rewrite (from_items_all _ _ _ d); [rewrite dupdate_nil by exact Hn; reflexivity|].
  clear Hn K. induction d as [|[k v] d IH]; constructor; [|apply IH; intros; apply H; right; assumption].
  split; [reflexivity|]. destruct (H k v (or_introl eq_refl)) as (_ & _ & H3 & H4).
  destruct (settled_fd _ v m H4 H3) as [B F]. apply fd_of_spec; auto.
Qed.

Lemma Forall2_maps : forall A B D (Q : B -> D -> Prop) (f : A -> B) (g : A -> D) l, (forall x, In x l -> Q (f x) (g x)) -> Forall2 Q (map f l) (map g l).
Proof. intros A B D Q f g l H. induction l; constructor; [apply H; left; reflexivity|apply IHl; intros; apply H; right; assumption]. Qed.

Lemma canon_trip : forall s v, canon s v -> forall m, deepspec m s = true -> exists w, trip m s v w.
Proof.
  intros s v H. induction H as [s v H|s c d Hs Hd Hn Hk Hc IH|s c l Hs Hd Hl Hn Hk Hc IH]; intros m Hm.
  - destruct (plain_trip s v H) as (w & H1 & H2 & H3 & H4 & H5). exists w. repeat split; auto.
  - destruct Hs as ((t & Ht) & Hser & Hde).
    assert (Dc : dclass s = Some c) by (unfold dclass; destruct Hde as [[-> ->]|[->|[->| ->]]]; reflexivity).
    cbn [deepspec] in Hm. rewrite Dc in Hm. destruct m as [|m]; [discriminate|].
    destruct (trip_msg c m d Hn Hk Hd) as (r & R1 & R2 & R3).
    { intros k v Hin. apply (IH k v Hin). apply deepok_spec, Hm. }
    exists (VDict r). unfold trip. cbn [sser fd_spec]. split; [|split; [exact R2|split; [intros [?|?]; discriminate|split; [discriminate|]]]].
    + destruct Hser as [->|[->| ->]]; exact R1.
    + rewrite (add_msg _ _ t r Ht).
      destruct (R3 Fdict) as (x & [[_ ->]|[? _]] & X); [discriminate| |discriminate].
      destruct (R3 Fjson) as (y & [[? _]|[_ (tt' & J & ->)]] & Y); [discriminate|discriminate|].
      destruct Hde as [[-> ->]|[->|[->| ->]]]; change (l_deser (lib_n (S (S m)))) with (deser_step (lib_n (S m)));
        cbn [deser_step de_msg de_one_of dumps_unless_str bind].
      * rewrite J. cbn [bind]. rewrite Y. reflexivity.
      * rewrite J. cbn [bind]. rewrite Y. reflexivity.
      * unfold de_one_of. cbn [dumps_unless_str]. rewrite J. cbn [bind]. rewrite Y. reflexivity.
      * rewrite X. reflexivity.
  - destruct Hs as (Ht & Hsd).
    assert (Dc : dclass s = Some c) by (unfold dclass; destruct Hsd as [(-> & _ & ->)|[(-> & _ & ->)|(-> & _ & ->)]]; reflexivity).
    cbn [deepspec] in Hm. rewrite Dc in Hm. destruct m as [|m]; [discriminate|].
    assert (R : exists rs, Forall2 (fun r d => to_dict_v (VMsg c d) = Ok (VDict r) /\ json_value (VDict r) /\
       exists t, json_dumps (VDict r) = Ok t /\ deser_cls (lib_n (S m)) c (VStr t) Fjson = Ok (VMsg c d)) rs l).
    { clear Hl. induction l as [|d l IHl]; [exists []; constructor|].
      destruct IHl as [rs Hrs]; [intros; eapply Hn; right; eassumption|intros; eapply Hk; [right|]; eassumption
        |intros; eapply Hc; [right|]; eassumption|intros; eapply IH; [right| |]; eassumption|].
      destruct (trip_msg c m d) as (r & R1 & R2 & R3); [apply Hn; left; reflexivity|intros k v Hin; eapply Hk; [left; reflexivity|eassumption]|exact Hd
        |intros k v Hin; eapply IH; [left; reflexivity|eassumption|apply deepok_spec, Hm]|].
      exists (r :: rs). constructor; [|exact Hrs]. split; [exact R1|]. split; [exact R2|].
      destruct (R3 Fjson) as (y & [[? _]|[_ (t & J & ->)]] & Y); [discriminate|discriminate|]. eauto. }
    destruct R as [rs R].
    assert (Hrs : rs <> []) by (intros ->; inversion R; congruence).
    exists (VList (map VDict rs)). unfold trip. cbn [sser fd_spec]. split; [|split; [|split; [|split; [discriminate|]]]].
    + assert (M : forall f, (forall d, f (VMsg c d) = to_dict_v (VMsg c d)) -> mapM f (map (VMsg c) l) = Ok (map VDict rs)).
      { intros f Hf. apply mapM_Forall2. clear - R Hf. induction R as [|r d rs l (R1 & _) R IH]; constructor; [rewrite Hf; exact R1|exact IH]. }
      destruct Hsd as [(Ec & -> & _)|[(_ & -> & _)|(_ & -> & _)]]; cbn [td_entry ser_dict]; rewrite M; try reflexivity.
      intro d. subst c. reflexivity.
    + constructor. intros x Hx. apply in_map_iff in Hx. destruct Hx as (r & <- & Hr). clear - R Hr.
      induction R as [|r' d rs l (_ & R2 & _) R IH]; [destruct Hr|]. destruct Hr as [->|Hr]; auto.
    + intros [E|E]; [discriminate|]. destruct rs; discriminate.
    + assert (A : forall f, (forall r d t, json_dumps (VDict r) = Ok t -> deser_cls (lib_n (S m)) c (VStr t) Fjson = Ok (VMsg c d) -> f (VDict r) = Ok (VMsg c d)) ->
                 mapM f (map VDict rs) = Ok (map (VMsg c) l)).
      { intros f Hf. apply mapM_Forall2. clear - R Hf. induction R as [|r d rs l (_ & _ & t & R3 & R4) R IH]; constructor; [eapply Hf; eassumption|exact IH]. }
      assert (B : mapM (fun x => do it <- items x ; do m0 <- l_mk (lib_n (S (S m))) c it ; Ok (VMsg c m0)) (map (VMsg c) l) = Ok (map (VMsg c) l)).
      { apply mapM_Forall2, Forall2_maps. intros d Hin. cbn [items bind]. change (l_mk (lib_n (S (S m))) c d) with (construct_gen (lib_n (S m)) (cdef c) d).
        rewrite again; [reflexivity|exact Hd|apply Hn, Hin|]. intros k v Hkv. destruct (Hk d k v Hin Hkv) as (_ & K1 & K2 & K3). eauto 6. }
      unfold add_val. rewrite Ht. destruct rs as [|r0 rs]; [congruence|].
      cbn [map]. cbn [isinstance andb]. change (VDict r0 :: map VDict rs) with (map VDict (r0 :: rs)).
      change (l_deser (lib_n (S (S m)))) with (deser_step (lib_n (S m))).
      destruct Hsd as [(Ec & _ & ->)|[(Ec & _ & ->)|(Ec & _ & ->)]]; cbn [deser_step py_iter bind]; rewrite A;
        try (cbn [bind decode_err py_iter]; rewrite B; reflexivity).
      * intros r d t J Y. subst c. cbn [de_link]. rewrite J. exact Y.
      * intros r d t J Y. subst c. unfold de_one_of. cbn [dumps_unless_str]. rewrite J. cbn [bind]. rewrite Y. reflexivity.
      * intros r d t J Y. subst c. cbn [de_msg]. rewrite J. exact Y.
Qed.

(** ** the theorems *)
Lemma deepspec_lib : forall s, deepspec 11 s = true.
Proof. intros [s|]; [|reflexivity]. cbn [deepspec]. destruct (dclass s); [apply lib_deep|reflexivity]. Qed.
Lemma dget_covered : forall C d, covers_defaults C d -> forall k, dget (dupdate (cd_default C) d) k = dget (dupdate [] d) k.
Proof.
  intros C d H k. rewrite !dget_dupdate_rev. destruct (dget (rev d) k) eqn:E; [reflexivity|].
  destruct (dget (cd_default C) k) eqn:E2; [|reflexivity]. exfalso. apply dget_In in E2.
  assert (In k (map fst d)) as G by (apply H; apply in_map_iff; exists (k, v); auto).
  apply dget_None in E. apply E. rewrite map_rev. apply in_rev in G. exact G.
Qed.
Lemma round_trip : forall C d, content canon (cd_param C) d -> covers_defaults C d ->
  exists r t d', to_dict C d = Ok r /\ from_dict C (cd_default C) (VDict r) = (d', Ok tt) /\
    to_json C d = Ok t /\ from_json C (cd_default C) t = (d', Ok tt) /\ forall k, dget d' k = dget d k.
Proof.
  intros C d [Hn H] Hc. destruct (trip_entries (cd_param C) 11 d Hn) as (r & H1 & H2 & H3 & H4).
  { intros k v Hin. apply (H k v Hin). }
  { intros k v Hin. apply canon_trip; [apply (H k v Hin)|apply deepspec_lib]. }
  assert (J : json_value (VDict r)) by (constructor; [rewrite H2; exact Hn|exact H3]).
  destruct (json_codec _ J) as (t & J1 & _ & J2).
  exists r, t, (dupdate (cd_default C) d). unfold to_json. assert (T : to_dict C d = Ok r) by exact H1. rewrite T.
  split; [reflexivity|]. split; [exact (from_items_all _ _ _ _ _ H4)|]. split; [exact J1|]. split.
  - unfold from_json. cbn [from_json_gen]. rewrite J2. exact (from_items_all _ _ _ _ _ H4).
  - intro k. rewrite (dget_covered C d Hc), dupdate_nil by exact Hn. reflexivity.
Qed.

(** ** urlencoded *)
Definition field (k : ustr) (P : dict pspec) (v : value) (us : list uval) : Prop :=
  ue_entry P k v = Ok (map (fun x => (k, x)) us) /\ us <> [] /\ (forall x, In x us -> scalars (uval_text x) = true /\ uval_text x <> []) /\
  fu_entry the_lib P k (map uval_text us) = Ok v.

Lemma spec_param : forall P k, spec_of P k = param_spec P k.
Proof. intros. unfold spec_of, param_spec. rewrite before_hash_base. reflexivity. Qed.
Lemma enc8_ok : forall t, scalars t = true -> enc8 t = Ok (UBytes t).
Proof. intros t H. unfold enc8. rewrite H. reflexivity. Qed.
Lemma texts_fields : forall (k : ustr) l, texts l ->
  mapM (fun x => do t <- py_str x ; do b <- enc8 t ; Ok (k, b)) (map VStr l) = Ok (map (fun x => (k, x)) (map UBytes l)).
Proof.
  intros k l H. induction l as [|x l IH]; [reflexivity|]. cbn [map mapM py_str bind]. rewrite (enc8_ok x) by (apply H; left; reflexivity).
  cbn [bind]. rewrite IH by (intros s Hs; apply H; right; exact Hs). reflexivity.
Qed.
Lemma ubytes_text : forall l, map uval_text (map UBytes l) = l.
Proof. intro l. rewrite map_map. apply map_id. Qed.
Lemma ubytes_ok : forall l, texts l -> ~ In [] l -> forall x, In x (map UBytes l) -> scalars (uval_text x) = true /\ uval_text x <> [].
Proof. intros l H1 H2 x Hx. apply in_map_iff in Hx. destruct Hx as (s & <- & Hs). cbn [uval_text]. split; [apply H1, Hs|intros ->; exact (H2 Hs)]. Qed.
Lemma one_ok : forall x, scalars (uval_text x) = true -> uval_text x <> [] -> forall y, In y [x] -> scalars (uval_text y) = true /\ uval_text y <> [].
Proof. intros x H1 H2 y [<-|[]]. auto. Qed.

Lemma urlable_field : forall P k v, urlable (param_spec P k) v -> exists us, field k P v us.
Proof.
  intros P k v H. unfold field, ue_entry, fu_entry. rewrite !spec_param.
  remember (param_spec P k) as o eqn:Eo. destruct H as [t Hc Hn|x y l Hl Hn|s t Ht Hd Hc Hn|s e l Ht Hs Hd Hl Hf Hn Hb|s e l Ht Hs Hd Hl Hn Hne|s d Hs Hd Hj|s c d Hs Hd Hc].
  - exists [UBytes t]. rewrite (enc8_ok t Hc). split; [reflexivity|]. split; [discriminate|]. split; [apply one_ok; assumption|reflexivity].
  - exists (map UBytes (x :: y :: l)). rewrite texts_fields by exact Hl. split; [reflexivity|]. split; [discriminate|].
    split; [apply ubytes_ok; assumption|]. rewrite ubytes_text. reflexivity.
  - exists [UBytes t]. rewrite (enc8_ok t Hc). split; [reflexivity|]. split; [discriminate|]. split; [apply one_ok; assumption|].
    rewrite Hd. cbn [map uval_text]. destruct (p_typ s) as [| | | |c|e] eqn:Et; try reflexivity. exfalso. eapply Ht. reflexivity.
  - exists [UText (join [32] l)]. split; [|split; [discriminate|split]].
    + destruct Hs as [-> | ->]; cbn [ser_url_list]; rewrite sp_join_strs; reflexivity.
    + apply one_ok; cbn [uval_text]; [apply join_scalars, Hl|apply join_nonempty; assumption].
    + rewrite Ht. cbn [map uval_text hd]. destruct (list_deser_inverse l Hn Hf (lib_n 11)) as (D1 & D2 & _).
      destruct Hd as [-> | ->]; [exact D1|exact D2].
  - exists (map UBytes l). rewrite Hs, texts_fields by exact Hl. split; [reflexivity|]. split; [destruct l; [congruence|discriminate]|].
    split; [apply ubytes_ok; assumption|]. rewrite Ht, Hd, ubytes_text. reflexivity.
  - destruct (json_codec _ Hj) as (t & J1 & J2 & J3). exists [UText t]. rewrite Hs, Hd. cbn [ser_url_other]. rewrite J1.
    split; [reflexivity|]. split; [discriminate|]. split.
    + apply one_ok; cbn [uval_text]; [apply printable_scalars, J2|intros ->; discriminate].
    + cbn [map uval_text]. destruct (p_typ s); exact J3.
  - destruct Hs as ((t0 & Ht) & Hser & _).
    inversion Hc as [? ? Hp|? ? ? Hs' Hdef Hnd Hk Hcan|]; subst; [inversion Hp|].
    assert (Dm : deepok 11 c = true) by apply lib_deep.
    destruct (trip_msg c 10 d Hnd Hk Hdef) as (r & R1 & R2 & R3).
    { intros k' v' Hin. apply canon_trip; [apply Hcan, Hin|apply deepok_spec, Dm]. }
    destruct (R3 Fjson) as (y & [[? _]|[_ (t & J & ->)]] & Y); [discriminate|discriminate|].
    destruct (json_codec _ R2) as (t' & J1 & J2 & J3). rewrite J in J1. injection J1 as <-.
    exists [UText t]. split; [|split; [discriminate|split]].
    + assert (S1 : exists z, p_ser s = Some z /\ ser_dict to_dict_v z (VMsg c d) = Ok (VDict r)).
      { destruct Hser as [->|[->| ->]]; eexists; (split; [reflexivity|exact R1]). }
      destruct S1 as (z & -> & ->). cbn [bind]. rewrite J. reflexivity.
    + apply one_ok; cbn [uval_text]; [apply printable_scalars, J2|intros ->; discriminate].
    + rewrite Ht, Hd. cbn [map uval_text].
      change (l_deser the_lib (DeJsonCls c) (VStr t) Furl) with (deser_cls (lib_n 11) c (VStr t) Fjson). exact Y.
Qed.

Lemma qs_add_last : forall d k l v, ~ In k (map fst d) -> qs_add (d ++ [(k, l)]) k v = d ++ [(k, l ++ [v])].
Proof.
  induction d as [|[k' l'] d IH]; intros k l v H; cbn [app qs_add]; [rewrite ueqb_refl; reflexivity|].
  destruct (ueqb k k') eqn:E; [apply ueqb_eq in E; subst; exfalso; apply H; left; reflexivity|].
  rewrite IH; [reflexivity|]. intro Hin. apply H. right. exact Hin.
Qed.
Lemma qs_add_many : forall vs d k l, ~ In k (map fst d) ->
  fold_left (fun d kv => qs_add d (fst kv) (snd kv)) (map (fun v => (k, v)) vs) (d ++ [(k, l)]) = d ++ [(k, l ++ vs)].
Proof.
  induction vs as [|v vs IH]; intros d k l H; cbn [map fold_left fst snd]; [rewrite app_nil_r; reflexivity|].
  rewrite qs_add_last, IH by exact H. rewrite <- app_assoc. reflexivity.
Qed.
Lemma qs_groups : forall (g : list (ustr * list ustr)) d, NoDup (map fst d ++ map fst g) -> (forall k l, In (k, l) g -> l <> []) ->
  fold_left (fun d kv => qs_add d (fst kv) (snd kv)) (flat_map (fun kl : ustr * list ustr => map (fun v => (fst kl, v)) (snd kl)) g) d = d ++ g.
Proof.
  induction g as [|[k l] g IH]; intros d Hn Hl; cbn [flat_map]; [rewrite app_nil_r; reflexivity|].
  assert (Hk : ~ In k (map fst d)).
  { cbn [map fst] in Hn. apply NoDup_remove_2 in Hn. intro Hin. apply Hn. apply in_or_app. left. exact Hin. }
  destruct l as [|v l]; [exfalso; eapply Hl; [left|]; reflexivity|].
  rewrite fold_left_app. cbn [fst snd map fold_left]. rewrite qs_add_new, qs_add_many by exact Hk. cbn [app].
  rewrite IH; [rewrite <- app_assoc; reflexivity| |intros; eapply Hl; right; eassumption].
  rewrite map_app, <- app_assoc. exact Hn.
Qed.

Lemma url_round_trip : forall C lax d, content urlable (cd_param C) d -> covers_defaults C d -> (lax = true \/ has_required C d) ->
  exists t d', to_urlencoded C lax d = Ok t /\ from_urlencoded C (cd_default C) t = (d', Ok tt) /\ forall k, dget d' k = dget d k.
Proof.
  intros C lax d [Hn H] Hc Hr.
  assert (F : exists g : list (ustr * list uval), map fst g = map fst d /\ (forall k us, In (k, us) g -> scalars k = true /\ us <> [] /\
              forall x, In x us -> scalars (uval_text x) = true /\ uval_text x <> []) /\
    mapM (fun kv => ue_entry (cd_param C) (fst kv) (snd kv)) d = Ok (map (fun kl : ustr * list uval => map (fun x => (fst kl, x)) (snd kl)) g) /\
    forall d0, from_fields the_lib (cd_param C) d0 (map (fun kl : ustr * list uval => (fst kl, map uval_text (snd kl))) g) = (dupdate d0 d, Ok tt)).
  { clear Hn Hc Hr. induction d as [|[k v] d IH].
    - exists []. split; [reflexivity|]. split; [intros ? ? []|]. split; reflexivity.
    - destruct IH as (g & G1 & G2 & G3 & G4); [intros; apply H; right; assumption|].
      destruct (H k v (or_introl eq_refl)) as [Hk Hu]. destruct (urlable_field _ _ _ Hu) as (us & U1 & U2 & U3 & U4).
      exists ((k, us) :: g). cbn [map fst snd mapM from_fields]. rewrite G1, U1, G3, U4. split; [reflexivity|]. split; [|split; [reflexivity|]].
      + intros k' us' [E|E]; [injection E as <- <-; auto|apply G2, E].
      + intro d0. rewrite G4. reflexivity. }
  destruct F as (g & G1 & G2 & G3 & G4).
  set (g' := map (fun kl : ustr * list uval => (fst kl, map uval_text (snd kl))) g) in *.
  assert (L : map (fun kv : ustr * uval => (fst kv, uval_text (snd kv))) (List.concat (map (fun kl : ustr * list uval => map (fun x => (fst kl, x)) (snd kl)) g)) =
              flat_map (fun kl : ustr * list ustr => map (fun v => (fst kl, v)) (snd kl)) g').
  { unfold g'. clear. induction g as [|[k us] g IH]; [reflexivity|]. cbn [map List.concat flat_map fst snd]. rewrite map_app, IH. f_equal.
    rewrite !map_map. reflexivity. }
  assert (V : forall k v, In (k, v) (flat_map (fun kl : ustr * list ustr => map (fun v => (fst kl, v)) (snd kl)) g') -> scalars k = true /\ scalars v = true /\ v <> []).
  { intros k v Hin. apply in_flat_map in Hin. destruct Hin as ([k1 l1] & Hg & Hin). apply in_map_iff in Hg.
    destruct Hg as ([k2 us] & E & Hg). cbn [fst snd] in E. injection E as <- <-. cbn [fst snd] in Hin. apply in_map_iff in Hin.
    destruct Hin as (t & E & Hin). injection E as <- <-. apply in_map_iff in Hin. destruct Hin as (x & <- & Hx).
    destruct (G2 _ _ Hg) as (S1 & _ & S2). split; [exact S1|]. apply S2, Hx. }
  destruct (urlencode_total (flat_map (fun kl : ustr * list ustr => map (fun v => (fst kl, v)) (snd kl)) g')) as [t T].
  { intros k v Hin. destruct (V k v Hin) as (V1 & V2 & _). auto. }
  exists t, (dupdate (cd_default C) d). split; [|split].
  - unfold to_urlencoded. replace (negb lax && missing_required (cd_param C) d) with false.
    + rewrite G3. cbn [bind]. unfold ue_params. rewrite L, T. reflexivity.
    + symmetry. destruct Hr as [->|Hr]; [reflexivity|]. apply andb_false_iff. right. unfold missing_required.
      destruct (existsb _ _) eqn:E; [|reflexivity]. apply existsb_exists in E. destruct E as ([k s] & Hin & E). cbn [fst snd] in E.
      apply andb_true_iff in E. destruct E as [E1 E2]. specialize (Hr k s Hin E1). unfold dhas in E2.
      destruct (dget d k) eqn:E3; [discriminate|]. apply dget_None in E3. contradiction.
  - assert (Q : parse_qs t = g').
    { unfold parse_qs. rewrite (urlencode_parse_qsl _ _ T) by (intros k v Hin; apply (V k v Hin)). unfold qs_group.
      rewrite qs_groups; [reflexivity| |].
      - cbn [map app]. unfold g'. rewrite map_map. cbn [fst]. change (NoDup (map fst g)). rewrite G1. exact Hn.
      - intros k l Hin. apply in_map_iff in Hin. destruct Hin as ([k2 us] & E & Hg). cbn [fst snd] in E. injection E as <- <-.
        destruct (G2 _ _ Hg) as (_ & S2 & _). destruct us; [congruence|discriminate]. }
    unfold from_urlencoded, from_qs. rewrite Q. destruct g' as [|f fs] eqn:Eg; [|apply G4].
    assert (t = []) as -> by (unfold urlencode in T; injection T as <-; reflexivity).
    rewrite <- (G4 (cd_default C)). reflexivity.
  - intro k. rewrite (dget_covered C d Hc), dupdate_nil by exact Hn. reflexivity.
Qed.

Lemma json_round_trip : forall C d, content canon (cd_param C) d -> covers_defaults C d ->
  exists t d', to_json C d = Ok t /\ from_json C (cd_default C) t = (d', Ok tt) /\ forall k, dget d' k = dget d k.
Proof. intros C d H1 H2. destruct (round_trip C d H1 H2) as (r & t & d' & _ & _ & H3 & H4 & H5). eauto. Qed.
Lemma dict_round_trip : forall C d, content canon (cd_param C) d -> covers_defaults C d ->
  exists r d', to_dict C d = Ok r /\ from_dict C (cd_default C) (VDict r) = (d', Ok tt) /\ forall k, dget d' k = dget d k.
Proof. intros C d H1 H2. destruct (round_trip C d H1 H2) as (r & t & d' & H3 & H4 & _ & _ & H5). eauto. Qed.
