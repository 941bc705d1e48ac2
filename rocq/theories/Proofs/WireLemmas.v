(** Proofs about JSON documents of the declared types. *)
From Coq Require Import List NArith ZArith Bool String Lia.
From Verif Require Import Base.Ustr Base.UstrLemmas Model.Cls Model.Value Model.Pspec Model.Tables Model.Message Model.Json
  Spec.JsonSpec Spec.MessageSpec Spec.CodecSpec Spec.RoundTripSpec Spec.WireSpec
  Proofs.ValueLemmas Proofs.JsonLemmas Proofs.MessageLemmas Proofs.CodecLemmas Proofs.EncodeLemmas Proofs.RoundTrip Proofs.VerifyLemmas.
Import ListNotations.
Open Scope list_scope.
Open Scope N_scope.

Lemma words_join : forall l, words l = join [32] l.
Proof. induction l as [|x [|y l] IH]; [reflexivity|reflexivity|]. cbn [words join] in *. rewrite IH. reflexivity. Qed.

Lemma names_json : forall l, map fst (as_json l) = map name_of l.
Proof. intro l. unfold as_json. rewrite map_map. reflexivity. Qed.
Lemma names_message : forall l, map fst (as_message l) = map name_of l.
Proof. intro l. unfold as_message. rewrite map_map. reflexivity. Qed.
Lemma in_message : forall l k w, In (k, w) (as_message l) <-> exists v, In (k, v, w) l.
Proof.
  intros l k w. unfold as_message. rewrite in_map_iff. split.
  - intros ([[k' v] w'] & H & Hin). cbn in H. injection H as <- <-. eauto.
  - intros (v & H). exists (k, v, w). auto.
Qed.
Lemma in_json : forall l k v, In (k, v) (as_json l) <-> exists w, In (k, v, w) l.
Proof.
  intros l k v. unfold as_json. rewrite in_map_iff. split.
  - intros ([[k' v'] w] & H & Hin). cbn in H. injection H as <- <-. eauto.
  - intros (w & H). exists (k, v, w). auto.
Qed.

Lemma written_entries : forall P l, (forall k v w, In (k, v, w) l -> td_entry to_dict_v (sser (param_spec P k)) w = Ok v) ->
  mapM (fun kv => match td_entry to_dict_v (ser_of P (fst kv)) (snd kv) with Ok y => Ok (fst kv, y) | Err e => Err e end) (as_message l)
  = Ok (as_json l).
Proof.
  intros P l H. induction l as [|[[k v] w] l IH]; [reflexivity|].
  cbn [as_message map mapM fst snd name_of]. rewrite ser_of_spec, (H k v w (or_introl eq_refl)). cbn [bind].
  change (map (fun x => (name_of x, snd x)) l) with (as_message l). rewrite IH by (intros; apply H; right; assumption). reflexivity.
Qed.

(** what stands for a value of the declared type is written as that value *)
Lemma wire_canon : forall s v w, wire s v w -> canon s w /\ td_entry to_dict_v (sser s) w = Ok v.
Proof.
  intros s v w H.
  induction H as [v Hj Hb|s Hs Ht|s t Ht Hs Hc Hn|s z Ht Hs|s b Ht Hs|s l Ht Hs Hd Hl Hn Hb|s l Ht Hs Hd Hl Hf Hn Hb
                  |s d Ht Hs Hd Hj|s t Ht Hs Hd Hc Hn|s c l Hs Hd Hn Hk Hw IH|s c ls Hs Hd Hl Hn Hk Hw IH]; cbn [sser].
  - split; [apply CnPlain, PlAny; assumption|]. apply json_td_post, Hj.
  - split; [apply CnPlain, PlNone; assumption|]. rewrite Hs. reflexivity.
  - split; [apply CnPlain, PlStr; assumption|]. rewrite Hs. reflexivity.
  - split; [apply CnPlain, PlInt; assumption|]. rewrite Hs. reflexivity.
  - split; [apply CnPlain, PlBool; assumption|]. rewrite Hs. reflexivity.
  - split; [apply CnPlain, PlList; assumption|]. rewrite Hs. cbn [td_entry]. apply json_td_post, texts_json, Hl.
  - split; [apply CnPlain, PlSpSep; assumption|]. rewrite Hs, words_join. cbn [td_entry ser_dict]. rewrite sp_join_strs. reflexivity.
  - split; [apply CnPlain, PlJson; auto|]. rewrite Hs. reflexivity.
  - split; [apply CnPlain, PlToken; assumption|]. rewrite Hs. reflexivity.
  - assert (R : to_dict_v (VMsg c (as_message l)) = Ok (VDict (as_json l))).
    { rewrite to_dict_v_msg. unfold to_dict. rewrite written_entries; [reflexivity|]. intros k v w Hin. apply (IH k v w Hin). }
    split.
    + apply CnMsg; [exact Hs|exact Hd|rewrite names_message; exact Hn| |]; intros k w Hin; apply in_message in Hin; destruct Hin as (v & Hin).
      * eapply Hk, Hin.
      * apply (IH k v w Hin).
    + destruct Hs as (_ & Hser & _). destruct Hser as [->|[->| ->]]; exact R.
  - assert (R : forall l, In l ls -> to_dict_v (VMsg c (as_message l)) = Ok (VDict (as_json l))).
    { intros l Hin. rewrite to_dict_v_msg. unfold to_dict. rewrite written_entries; [reflexivity|]. intros k v w Hi. apply (IH l k v w Hin Hi). }
    split.
    + rewrite <- (map_map as_message (VMsg c)). apply CnMsgs; [exact Hs|exact Hd|destruct ls; [congruence|discriminate]| | |].
      * intros d Hd'. apply in_map_iff in Hd'. destruct Hd' as (l & <- & Hin). rewrite names_message. apply Hn, Hin.
      * intros d k w Hd' Hin. apply in_map_iff in Hd'. destruct Hd' as (l & <- & Hl'). apply in_message in Hin. destruct Hin as (v & Hin).
        eapply Hk; eassumption.
      * intros d k w Hd' Hin. apply in_map_iff in Hd'. destruct Hd' as (l & <- & Hl'). apply in_message in Hin. destruct Hin as (v & Hin).
        apply (IH l k v w Hl' Hin).
    + assert (M : forall f, (forall d, f (VMsg c d) = to_dict_v (VMsg c d)) ->
          mapM f (map (fun l => VMsg c (as_message l)) ls) = Ok (map (fun l => VDict (as_json l)) ls)).
      { intros f Hf. apply mapM_Forall2, Forall2_maps. intros l Hin. rewrite Hf. apply R, Hin. }
      destruct Hs as (_ & Hsd). destruct Hsd as [(Ec & -> & _)|[(_ & -> & _)|(_ & -> & _)]]; cbn [td_entry ser_dict]; rewrite M; try reflexivity.
      intro d. subst c. reflexivity.
Qed.

(** values of the declared type and the tolerated ones are read *)
Lemma wire_read : forall s v w, wire s v w -> json_value v /\ ~ blank v /\ (v = VNone -> w = VNone) /\ fd_spec the_lib s v = Ok (Some w).
Proof.
  intros s v w H. destruct (wire_canon s v w H) as [H1 H2].
  destruct (canon_trip s w H1 11 (deepspec_lib s)) as (v' & T1 & T2 & T3 & T4 & T5). rewrite H2 in T1. injection T1 as <-. auto.
Qed.
Lemma tolerated_read : forall s v w, tolerated s v w -> json_value v /\ ~ blank v /\ (v = VNone -> w = VNone) /\ fd_spec the_lib s v = Ok (Some w).
Proof.
  intros s v w H. destruct H as [s v w H|s d Ht Hs Hd Hj|s t Ht Hs Hd Hc Hn Hb|s l Ht Hs Hd Hl Hf Hn Hb].
  - apply wire_read, H.
  - split; [exact Hj|]. split; [intros [E|E]; discriminate|]. split; [discriminate|]. cbn [fd_spec]. unfold add_val. rewrite Ht. reflexivity.
  - split; [constructor; exact Hc|]. split; [intros [E|E]; congruence|]. split; [discriminate|]. cbn [fd_spec]. unfold add_val. rewrite Ht, Hd.
    cbn [isinstance andb]. change (l_deser the_lib) with (deser_step (lib_n 11)). cbn [deser_step sp_split].
    pose proof (join_split 32 [t]) as J. cbn [join] in J. rewrite J; [reflexivity|discriminate|]. apply blank_free_iff. constructor; [exact Hb|constructor].
  - split; [apply texts_json, Hl|]. split; [apply strs_not_blank, Hb|]. split; [intro E; destruct l; discriminate|]. cbn [fd_spec].
    rewrite (str_list_add _ _ _ Ht Hn), Hd. change (l_deser the_lib) with (deser_step (lib_n 11)). cbn [deser_step].
    destruct l as [|x [|y l]]; [congruence| |].
    + cbn [map]. cbn [sp_split]. apply blank_free_iff in Hf. pose proof (join_split 32 [x]) as J.
      cbn [join] in J. rewrite J by (congruence || exact Hf). reflexivity.
    + cbn [map decode_err bind py_iter]. change (VStr x :: VStr y :: map VStr l) with (map VStr (x :: y :: l)).
      rewrite strs_isinstance. reflexivity.
Qed.

Lemma tolerated_canon : forall s v w, tolerated s v w -> canon s w.
Proof.
  intros s v w H. destruct H as [s v w H|s d Ht Hs Hd Hj|s t Ht Hs Hd Hc Hn Hb|s l Ht Hs Hd Hl Hf Hn Hb].
  - apply wire_canon in H. apply H.
  - apply CnPlain, PlJson; auto.
  - apply CnPlain. apply (PlList s [t]); try assumption; try congruence. intros x [<-|[]]. exact Hc.
  - apply CnPlain, PlSpSep; assumption.
Qed.

Lemma document_read : forall C l, document tolerated (cd_param C) l ->
  from_dict C (cd_default C) (VDict (as_json l)) = (dupdate (cd_default C) (as_message l), Ok tt).
Proof.
  intros C l [_ H]. unfold from_dict, from_dict_gen. cbn [items]. apply from_items_all.
  unfold as_json, as_message. apply Forall2_maps. intros [[k v] w] Hin. split; [reflexivity|]. cbn [fst snd name_of].
  destruct (H k v w Hin) as [_ Hk]. destruct (tolerated_read _ _ _ Hk) as (_ & T2 & T3 & T4). apply fd_of_spec; assumption.
Qed.

Lemma covered_get : forall C l, NoDup (map name_of l) -> covers_defaults C (as_message l) ->
  forall k, dget (dupdate (cd_default C) (as_message l)) k = dget (as_message l) k.
Proof. intros C l Hn Hc k. rewrite (dget_covered C _ Hc), dupdate_nil by (rewrite names_message; exact Hn). reflexivity. Qed.

(** any JSON text of the document *)
Lemma c124_read : forall C l t, document tolerated (cd_param C) l -> covers_defaults C (as_message l) ->
  json_loads t = Ok (VDict (as_json l)) ->
  exists d, from_json C (cd_default C) t = (d, Ok tt) /\ forall k, dget d k = dget (as_message l) k.
Proof.
  intros C l t H Hc Ht. exists (dupdate (cd_default C) (as_message l)). split; [|apply covered_get; [apply H|exact Hc]].
  unfold from_json. cbn [from_json_gen]. rewrite Ht. exact (document_read C l H).
Qed.

Lemma written_any : forall P l d, NoDup (map name_of l) -> (forall k w, In (k, w) d -> In (k, w) (as_message l)) ->
  (forall k v w, In (k, v, w) l -> td_entry to_dict_v (sser (param_spec P k)) w = Ok v) ->
  exists r, mapM (fun kv => match td_entry to_dict_v (ser_of P (fst kv)) (snd kv) with Ok y => Ok (fst kv, y) | Err e => Err e end) d = Ok r /\
    map fst r = map fst d /\ forall k v, In (k, v) r -> In (k, v) (as_json l).
Proof.
  intros P l d Hn Hd H. induction d as [|[k w] d IH].
  - exists []. split; [reflexivity|]. split; [reflexivity|]. intros k v [].
  - destruct IH as (r & R1 & R2 & R3); [intros; apply Hd; right; assumption|].
    destruct (proj1 (in_message l k w) (Hd k w (or_introl eq_refl))) as (v & Hv).
    exists ((k, v) :: r). cbn [mapM fst snd]. rewrite ser_of_spec, (H k v w Hv). cbn [bind]. rewrite R1. split; [reflexivity|].
    split; [cbn [map fst]; rewrite R2; reflexivity|]. intros k' v' [E|E]; [injection E as <- <-; apply in_json; eauto|apply R3, E].
Qed.

Lemma dget_ext : forall A (d e : dict A), NoDup (map fst d) -> NoDup (map fst e) ->
  (forall k, In k (map fst e) -> In k (map fst d)) -> (forall k v, In (k, v) d -> In (k, v) e) -> forall k, dget d k = dget e k.
Proof.
  intros A d e Nd Ne H1 H2 k. destruct (dget d k) as [v|] eqn:E.
  - symmetry. apply In_dget; [exact Ne|]. apply H2, dget_In, E.
  - symmetry. apply dget_None. apply dget_None in E. intro X. exact (E (H1 k X)).
Qed.

Lemma c124_kept : forall c l t, let C := cdef c in document wire (cd_param C) l -> covers_defaults C (as_message l) ->
  json_loads t = Ok (VDict (as_json l)) ->
  exists d r t', from_json C (cd_default C) t = (d, Ok tt) /\ (forall k, dget d k = dget (as_message l) k) /\
    to_json C d = Ok t' /\ json_loads t' = Ok (VDict r) /\ (forall k, dget r k = dget (as_json l) k) /\
    (cd_default C = [] -> r = as_json l).
Proof.
  intros c l t C [Hn H] Hc Ht.
  assert (HT : document tolerated (cd_param C) l).
  { split; [exact Hn|]. intros k v w Hin. destruct (H k v w Hin). split; [assumption|]. apply TlWire. assumption. }
  set (d := dupdate (cd_default C) (as_message l)).
  assert (G : forall k, dget d k = dget (as_message l) k) by (apply covered_get; assumption).
  assert (W : forall k v w, In (k, v, w) l -> td_entry to_dict_v (sser (param_spec (cd_param C) k)) w = Ok v).
  { intros k v w Hin. apply wire_canon. apply (H k v w Hin). }
  assert (Nm : NoDup (map fst (as_message l))) by (rewrite names_message; exact Hn).
  assert (Nj : NoDup (map fst (as_json l))) by (rewrite names_json; exact Hn).
  assert (Nd : NoDup (map fst d)) by (apply dupdate_nodup, lib_defaults_nodup).
  destruct (written_any (cd_param C) l d Hn) as (r & R1 & R2 & R3); [|exact W|].
  { intros k w Hin. apply dget_In. rewrite <- G. apply In_dget; assumption. }
  assert (Gr : forall k, dget r k = dget (as_json l) k).
  { apply dget_ext; [rewrite R2; exact Nd|exact Nj| |exact R3]. intros k Hk. rewrite R2. rewrite names_json, <- names_message in Hk.
    destruct (dget (as_message l) k) as [w|] eqn:E; [|apply dget_None in E; contradiction].
    rewrite <- G in E. apply dget_In in E. apply in_map_iff. exists (k, w). auto. }
  assert (J : json_value (VDict r)).
  { constructor; [rewrite R2; exact Nd|]. intros k v Hin. apply R3, in_json in Hin. destruct Hin as (w & Hin).
    destruct (H k v w Hin) as [Hk Hw]. split; [exact Hk|]. apply (wire_read _ _ _ Hw). }
  destruct (json_codec _ J) as (t' & J1 & _ & J2). exists d, r, t'.
  split. { unfold from_json. cbn [from_json_gen]. rewrite Ht. exact (document_read C l HT). }
  split; [exact G|]. split. { unfold to_json, to_dict. rewrite R1. exact J1. }
  split; [exact J2|]. split; [exact Gr|]. intro E.
  assert (Ed : d = as_message l) by (unfold d; rewrite E; apply dupdate_nil, Nm).
  rewrite Ed, (written_entries (cd_param C) l W) in R1. congruence.
Qed.

(** a JSON text inside of JSON: what json_serializer writes is never an object *)
Lemma c124_text : forall C d r k s v, to_dict C d = Ok r -> param_spec (cd_param C) k = Some s -> p_ser s = Some SerJson ->
  dget r k = Some v -> exists t, v = VStr t.
Proof.
  intros C d r k s v H Hs Hp Hv. apply dget_In in Hv. unfold to_dict in H. revert r H Hv.
  induction d as [|[k' w] d IH]; intros r H Hv; cbn [mapM fst snd] in H; [injection H as <-; destruct Hv|].
  destruct (td_entry to_dict_v (ser_of (cd_param C) k') w) as [y|e] eqn:Ey; [|discriminate]. cbn [bind] in H.
  match type of H with context [mapM ?f d] => destruct (mapM f d) as [r'|e] eqn:Er end; [|discriminate]. injection H as <-.
  destruct Hv as [Hv|Hv]; [|exact (IH r' eq_refl Hv)]. injection Hv as -> ->.
  rewrite ser_of_spec, Hs in Ey. cbn [sser] in Ey. rewrite Hp in Ey. cbn [td_entry ser_dict] in Ey.
  destruct (json_dumps w) as [x|e]; [|discriminate]. injection Ey as <-. eauto.
Qed.
