(** The exceptions of verify() of a message that carries tokens. *)
From Coq Require Import List NArith ZArith QArith Bool String Lia.
From Verif Require Import Base.Ustr Base.UstrLemmas Base.Percent Model.Cls Model.Value Model.Pspec Model.Tables Model.Json Model.Message Model.Env Model.Verify
  Spec.MessageSpec Spec.VerifySpec Spec.ErrorSpec Spec.RaiseSpec Spec.TokenErrorSpec
  Proofs.ValueLemmas Proofs.TypeLemmas Proofs.MessageLemmas Proofs.EncodeLemmas Proofs.VerifyLemmas Proofs.ErrorLemmas Proofs.ResponseLemmas Proofs.AgainLemmas Proofs.RaiseLemmas Proofs.DispatchLemmas.
Import ListNotations.
Open Scope list_scope.
Open Scope N_scope.

(** *** JSON documents hold no messages *)
Lemma only_dset : forall (d : dict value) k x, forallb (fun kv => json_only (snd kv)) d = true -> json_only x = true ->
  forallb (fun kv => json_only (snd kv)) (dset d k x) = true.
Proof.
  induction d as [|[k0 y] d IH]; intros k x Hd Hx; cbn [dset forallb snd] in *; [rewrite Hx; reflexivity|].
  apply andb_true_iff in Hd. destruct Hd as [A B]. destruct (ueqb k k0); cbn [forallb snd]; [rewrite Hx; exact B|]. rewrite A. exact (IH _ _ B Hx).
Qed.
Lemma only_dupdate : forall (l d : dict value), forallb (fun kv => json_only (snd kv)) d = true -> forallb (fun kv => json_only (snd kv)) l = true ->
  forallb (fun kv => json_only (snd kv)) (dupdate d l) = true.
Proof.
  unfold dupdate. induction l as [|[k x] l IH]; intros d Hd Hl; [exact Hd|]. cbn [fold_left forallb snd fst] in *. apply andb_true_iff in Hl.
  destruct Hl as [A B]. apply IH; [apply only_dset; assumption|exact B].
Qed.
Lemma j_only : forall n, (forall s v r, jval n s = Ok (v, r) -> json_only v = true) /\
  (forall s l r, jarr n s = Ok (l, r) -> forallb json_only l = true) /\
  (forall s l r, jobj n s = Ok (l, r) -> forallb (fun kv => json_only (snd kv)) l = true).
Proof.
  induction n as [|n (IV & IA & IO)]; [repeat split; discriminate|]. split; [|split].
  - intros s v r H. destruct s as [|x s]; [discriminate|]. cbn [jval] in H.
    destruct (x =? 34). { destruct (jscan s) as [[? ?]|]; [|discriminate]. injection H as <- _. reflexivity. }
    destruct (x =? 123).
    { destruct (skipws s) as [|c1 r1]; [discriminate|]. destruct (c1 =? 125). { injection H as <- _. reflexivity. }
      destruct (jobj n (c1 :: r1)) as [[l ?]|] eqn:El; [|discriminate]. injection H as <- _. unfold dict_of. cbn [json_only].
      apply only_dupdate; [reflexivity|]. exact (IO _ _ _ El). }
    destruct (x =? 91).
    { destruct (skipws s) as [|c1 r1]; [discriminate|]. destruct (c1 =? 93). { injection H as <- _. reflexivity. }
      destruct (jarr n (c1 :: r1)) as [[? ?]|] eqn:El; [|discriminate]. injection H as <- _. cbn [json_only]. exact (IA _ _ _ El). }
    do 3 (match type of H with (if ?b then _ else _) = _ => destruct b end; [injection H as <- _; reflexivity|]).
    match type of H with (if ?b then _ else _) = _ => destruct b end; [discriminate|].
    destruct (x =? 45); apply jnum_int in H; destruct H as [[z ->]|[z ->]]; reflexivity.
  - intros s l r H. cbn [jarr] in H. destruct (jval n s) as [[x rest]|] eqn:E; [|discriminate]. apply IV in E.
    destruct (skipws rest) as [|c r1]; [discriminate|]. destruct (c =? 93). { injection H as <- _. cbn [forallb]. rewrite E. reflexivity. }
    destruct (c =? 44); [|discriminate]. destruct (jarr n (skipws r1)) as [[l' r']|] eqn:E2; [|discriminate]. injection H as <- _.
    cbn [forallb]. rewrite E. exact (IA _ _ _ E2).
  - intros s l r H. cbn [jobj] in H. destruct s as [|q s]; [discriminate|]. destruct (q =? 34); [|discriminate].
    destruct (jscan s) as [[k r1]|]; [|discriminate]. destruct (skipws r1) as [|c r2]; [discriminate|]. destruct (c =? 58); [|discriminate].
    destruct (jval n (skipws r2)) as [[v r3]|] eqn:E; [|discriminate]. apply IV in E. destruct (skipws r3) as [|c3 r4]; [discriminate|].
    destruct (c3 =? 125). { injection H as <- _. cbn [forallb snd]. rewrite E. reflexivity. }
    destruct (c3 =? 44); [|discriminate]. destruct (jobj n (skipws r4)) as [[l' r']|] eqn:E2; [|discriminate]. injection H as <- _.
    cbn [forallb snd]. rewrite E. exact (IO _ _ _ E2).
Qed.
Lemma loads_only : forall s v, json_loads s = Ok v -> json_only v = true.
Proof.
  intros s v H. unfold json_loads in H. destruct s as [|c s]; [discriminate|]. destruct (c =? 65279); [discriminate|].
  destruct (jval _ _) as [[v' rest]|] eqn:E; [|discriminate]. destruct (skipws rest); [|discriminate]. injection H as <-. exact (proj1 (j_only _) _ _ _ E).
Qed.
Lemma jerr_only : forall v e, json_only v = true -> jerr v = Some e -> e = OutOfModel.
Proof.
  induction v using value_ind'; intros e J He; try discriminate; simpl in He.
  - destruct (Float.float_repr q); [discriminate|]. injection He as <-. reflexivity.
  - cbn [json_only] in J. induction l as [|x l IH]; [discriminate|]. inversion H; subst. cbn [forallb] in J. apply andb_true_iff in J. destruct J as [J1 J2].
    destruct (jerr x) eqn:E; [|auto]. injection He as <-. eauto.
  - cbn [json_only] in J. induction d as [|[k x] d IH]; [discriminate|]. inversion H; subst. cbn [forallb snd] in J. apply andb_true_iff in J. destruct J as [J1 J2].
    destruct (jerr x) eqn:E; [|auto]. injection He as <-. eauto.
Qed.

(** *** what is read from claims *)
Definition T3 : list exn := [EValueError; EMessageException; OutOfModel].
Definition calm (x : value) : Prop := json_only x = true \/ exists c m, x = VMsg c m /\ within T3 (to_dict_v x).
Definition all_only (d : dict value) : Prop := forall k v, In (k, v) d -> json_only v = true.
Lemma all_only_iff : forall d, json_only (VDict d) = true <-> all_only d.
Proof.
  intro d. cbn [json_only]. rewrite forallb_forall. split; [intros H k v Hin; exact (H (k, v) Hin)|intros H [k v] Hin; exact (H k v Hin)].
Qed.
Lemma texts_only : forall l, json_only (VList (map VStr l)) = true.
Proof. intro l. cbn [json_only]. apply forallb_forall. intros x H. apply in_map_iff in H. destruct H as (s & <- & _). reflexivity. Qed.
Lemma post_only : forall f x, json_only x = true -> td_post f x = Ok x.
Proof.
  intros f x H. destruct x as [| | | | |l| |]; try reflexivity; [|discriminate]. destruct l as [|y l]; [reflexivity|]. destruct y; try reflexivity. discriminate.
Qed.
Lemma plain_to_dict : forall P d, (forall k s, In (k, s) P -> p_ser s = None) -> all_only d ->
  forall kv, In kv d -> td_entry to_dict_v (ser_of P (fst kv)) (snd kv) = Ok (snd kv).
Proof.
  intros P d HP Hd [k v] Hin. cbn [fst snd]. assert (S : ser_of P k = None).
  { unfold ser_of, spec_of. destruct (dget P k) as [s|] eqn:E1; [apply dget_In in E1; exact (HP _ _ E1)|].
    destruct (dget P (base_key k)) as [s|] eqn:E2; [apply dget_In in E2; exact (HP _ _ E2)|].
    destruct (dget P (u "*")) as [s|] eqn:E3; [apply dget_In in E3; exact (HP _ _ E3)|reflexivity]. }
  rewrite S. cbn [td_entry]. apply post_only. exact (Hd k v Hin).
Qed.
Lemma plain_msg : forall c d, (forall k s, In (k, s) (cd_param (cdef c)) -> p_ser s = None) -> all_only d -> within T3 (to_dict_v (VMsg c d)).
Proof.
  intros c d HP Hd. rewrite to_dict_v_msg. assert (M : exists r, to_dict (cdef c) d = Ok r).
  { unfold to_dict. apply mapM_ok_iff. intros kv Hin. rewrite (plain_to_dict _ _ HP Hd kv Hin). eauto. }
  destruct M as [r ->]. apply within_ok.
Qed.
(** a table of texts only, or no table at all *)
Definition text_table (P : dict pspec) : Prop :=
  forall k s, In (k, s) P -> p_typ s = TStr /\ p_deser s = None /\ p_ser s = None.
Lemma text_add : forall L s v x, p_typ s = TStr -> p_deser s = None -> add_val L s v = Ok (Some x) -> x = VNone /\ v = VNone \/ exists t, x = VStr t.
Proof.
  intros L s v x Ht Hd H. unfold add_val in H. cbv zeta in H. rewrite Ht, Hd in H.
  destruct v as [| | | |t|l|d|c m]; cbn [isinstance andb negb] in H; try discriminate.
  - injection H as <-. left. split; reflexivity.
  - injection H as <-. right. eauto.
  - destruct l as [|[] l]; destruct (p_null s); discriminate.
Qed.
Lemma items_only : forall L P l d d', text_table P -> all_only l -> all_only d -> from_items L P d l = (d', Ok tt) -> all_only d'.
Proof.
  intros L P l d d' HP. revert d. induction l as [|[k v] l IH]; intros d Hl Hd H; cbn [from_items] in H; [injection H as <-; exact Hd|].
  assert (Hl' : all_only l) by (intros a b Hab; apply (Hl a b); right; exact Hab).
  destruct (fd_entry L P k v) as [[x|]|e] eqn:Ef; [|exact (IH d Hl' Hd H)|discriminate]. apply (IH (dset d k x) Hl'); [|exact H].
  apply all_only_iff. cbn [json_only]. apply only_dset; [apply all_only_iff in Hd; exact Hd|].
  assert (J : json_only v = true) by (apply (Hl k v); left; reflexivity).
  assert (A : forall k' s, dget P k' = Some s -> add_val L s v = Ok (Some x) -> json_only x = true).
  { intros k' s Hs Ha. apply dget_In in Hs. destruct (HP _ _ Hs) as (T1 & T2 & _). destruct (text_add _ _ _ _ T1 T2 Ha) as [[-> _]|[t ->]]; reflexivity. }
  unfold fd_entry in Ef. destruct (is_blank v); [discriminate|]. destruct (dget P k) as [s|] eqn:E1; [exact (A _ _ E1 Ef)|].
  destruct (dget P (base_key k)) as [s|] eqn:E2; [exact (A _ _ E2 Ef)|]. destruct (dget P (u "*")) as [s|] eqn:E3; [|injection Ef as <-; exact J].
  destruct v; try exact (A _ _ E3 Ef). injection Ef as <-. reflexivity.
Qed.
Lemma fields_only : forall L P l d d', text_table P -> all_only d -> from_fields L P d l = (d', Ok tt) -> all_only d'.
Proof.
  intros L P l d d' HP. revert d. induction l as [|[k vs] l IH]; intros d Hd H; cbn [from_fields] in H; [injection H as <-; exact Hd|].
  destruct (fu_entry L P k vs) as [x|e] eqn:Ef; [|discriminate]. apply (IH (dset d k x)); [|exact H].
  apply all_only_iff. cbn [json_only]. apply only_dset; [apply all_only_iff in Hd; exact Hd|].
  assert (A : match spec_of P k with Some s => p_typ s = TStr /\ p_deser s = None | None => True end).
  { unfold spec_of. destruct (dget P k) as [s|] eqn:E1; [apply dget_In in E1; destruct (HP _ _ E1) as (? & ? & _); auto|].
    destruct (dget P (base_key k)) as [s|] eqn:E2; [apply dget_In in E2; destruct (HP _ _ E2) as (? & ? & _); auto|].
    destruct (dget P (u "*")) as [s|] eqn:E3; [apply dget_In in E3; destruct (HP _ _ E3) as (? & ? & _); auto|exact I]. }
  unfold fu_entry in Ef. destruct (spec_of P k) as [s|].
  - destruct A as [A1 A2]. rewrite A1, A2 in Ef. destruct vs as [|y [|z vs]]; try discriminate. injection Ef as <-. reflexivity.
  - destruct vs as [|y [|z vs]]; injection Ef as <-; try reflexivity. apply (texts_only (y :: z :: vs)).
Qed.
Lemma deser_calm : forall L c v f x, text_table (cd_param (cdef c)) -> cd_default (cdef c) = [] -> json_only v = true ->
  deser_cls L c v f = Ok x -> calm x.
Proof.
  intros L c v f x HP Hd J H. unfold deser_cls in H. cbv zeta in H. rewrite Hd in H.
  assert (HS : forall k s, In (k, s) (cd_param (cdef c)) -> p_ser s = None) by (intros k s Hin; apply (HP k s Hin)).
  assert (N : all_only []) by (intros ? ? []).
  assert (F : forall b d', json_only b = true -> from_dict_gen L (cd_param (cdef c)) [] b = (d', Ok tt) -> all_only d').
  { intros b d' Jb Hf. unfold from_dict_gen in Hf. destruct b as [| | | | | |l|]; cbn [items] in Hf; try discriminate.
    apply all_only_iff in Jb. exact (items_only _ _ _ _ _ HP Jb N Hf). }
  assert (G : forall r, (do d <- ret_msg r ; Ok (VMsg c d)) = Ok x -> (forall d', r = (d', Ok tt) -> all_only d') -> calm x).
  { intros [d' [[]|e]] Hr Ha; cbn [ret_msg bind] in Hr; [|discriminate]. injection Hr as <-. right. exists c, d'. split; [reflexivity|].
    apply plain_msg; [exact HS|]. apply Ha. reflexivity. }
  refine (G _ H _). intros d' Hr. destruct f.
  - unfold from_urlencoded_gen in Hr. assert (Q : forall s, from_qs L (cd_param (cdef c)) [] s = (d', Ok tt) -> all_only d').
    { intros s Hq. unfold from_qs in Hq. destruct (parse_qs s) as [|p l]; [destruct s; [injection Hq as <-; exact N|discriminate]|].
      exact (fields_only _ _ _ _ _ HP N Hq). }
    destruct v as [| | | |s|[|[] ?]| |]; try discriminate; eauto.
  - exact (F v d' J Hr).
  - unfold from_json_gen in Hr. destruct v as [| | | |s| | |]; try discriminate. destruct (json_loads s) as [b|] eqn:Eb; [|discriminate].
    exact (F b d' (loads_only _ _ Eb) Hr).
Qed.
Lemma address_table : text_table (cd_param (cdef C_oidc_AddressClaim)).
Proof. intros k s H. assert (X : s = sp00) by (vm_compute in H; repeat (destruct H as [H|H]; [injection H as _ <-; reflexivity|]); destruct H). subst s. repeat split. Qed.
Lemma empty_table : text_table (cd_param (cdef C_Message)). Proof. intros k s []. Qed.

(** the specifications of the claims of tokens *)
Definition plain_spec (s : pspec) : bool :=
  match p_typ s, p_deser s, p_ser s with
  | TStr, None, None | TInt, None, None | TBool, None, None => true
  | TList TStr, Some DeList, Some SerList => true
  | TDict, Some DeJson, Some SerJson => true
  | _, _, _ => false
  end.
Definition message_spec (s : pspec) : bool :=
  match p_typ s, p_deser s, p_ser s with
  | TMsg C_Message, Some (DeOneOf C_oidc_AddressClaim), Some SerMsg | TMsg C_Message, Some DeMsg, Some SerMsg => true
  | _, _, _ => false
  end.
Lemma split_only : forall v x, sp_split v = Ok x -> json_only x = true.
Proof. intros v x H. destruct v; try discriminate. cbn [sp_split] in H. injection H as <-. apply texts_only. Qed.
Lemma list_only : forall L v f x, json_only v = true -> deser_step L DeList v f = Ok x -> json_only x = true.
Proof.
  intros L v f x J H. cbn [deser_step] in H. destruct f; [|injection H as <-; exact J|injection H as <-; exact J].
  destruct v as [| | | |s|[|y [|z l]]| |]; try (injection H as <-; reflexivity); exact (split_only _ _ H).
Qed.
Lemma decode_ok : forall A (r : res A) x, decode_err r = Ok x -> r = Ok x.
Proof. intros A [y|e] x H; cbn [decode_err] in H; [exact H|destruct (artefact e); discriminate]. Qed.
Lemma de_only : forall k v f x, k = DeList \/ k = DeJson -> json_only v = true -> (do y <- decode_err (l_deser the_lib k v f) ; Ok (Some y)) = Ok (Some x) -> json_only x = true.
Proof.
  intros k v f x Hk J H. destruct (decode_err _) as [y|] eqn:E; [|discriminate]. cbn [bind] in H. injection H as <-. apply decode_ok in E.
  change (l_deser the_lib k v f) with (deser_step (lib_n 11) k v f) in E. destruct Hk as [-> | ->]; [exact (list_only _ _ _ _ J E)|].
  cbn [deser_step] in E. destruct v; try discriminate. exact (loads_only _ _ E).
Qed.
Lemma plain_add : forall s v x, plain_spec s = true -> json_only v = true -> add_val the_lib s v = Ok (Some x) -> json_only x = true.
Proof.
  intros s v x Hs J H. unfold plain_spec in Hs. unfold add_val in H. cbv zeta in H.
  destruct (match v with VList [] | VList (VNone :: _) => true | _ => false end && negb (p_null s)); [discriminate|].
  destruct (p_typ s) as [| | | | |t] eqn:Et; try discriminate.
  - destruct (p_deser s); [discriminate|]. destruct v; cbn [isinstance] in H; try discriminate; injection H as <-; reflexivity.
  - destruct (p_deser s); [discriminate|]. destruct v; cbn [isinstance] in H; try discriminate; try (injection H as <-; reflexivity);
      destruct (py_int _) as [z|[]]; try discriminate; injection H as <-; reflexivity.
  - destruct (p_deser s); [discriminate|]. destruct v; cbn [isinstance] in H; try discriminate; injection H as <-; reflexivity.
  - destruct (p_deser s) as [[]|] eqn:Ed; try discriminate. destruct v; cbn [isinstance] in H; try discriminate;
      try (injection H as <-; first [reflexivity|exact J]); exact (de_only DeJson _ _ _ (or_intror eq_refl) J H).
  - destruct t; try discriminate. destruct (p_deser s) as [[]|] eqn:Ed; try discriminate.
    destruct v as [| | | |t|l|o|]; cbn [isinstance] in H; try discriminate.
    + destruct (p_null s); [injection H as <-; reflexivity|discriminate].
    + exact (de_only DeList _ _ _ (or_introl eq_refl) J H).
    + destruct (decode_err (l_deser the_lib DeList (VList l) Fdict)) as [y|] eqn:E; [|discriminate]. cbn [bind] in H. apply decode_ok in E.
      change (Ok (VList l) = Ok y) in E. injection E as <-. cbn [py_iter bind] in H. destruct (forallb _ l); [|discriminate]. injection H as <-. exact J.
    + exact (de_only DeList _ _ _ (or_introl eq_refl) J H).
Qed.
Lemma message_add : forall s v x, message_spec s = true -> json_only v = true -> add_val the_lib s v = Ok (Some x) -> calm x.
Proof.
  intros s v x Hs J H. unfold message_spec in Hs. unfold add_val in H. cbv zeta in H.
  destruct (match v with VList [] | VList (VNone :: _) => true | _ => false end && negb (p_null s)); [discriminate|].
  destruct (p_typ s) as [| | | |[]|] eqn:Et; try discriminate.
  assert (D : forall k y, k = DeOneOf C_oidc_AddressClaim \/ k = DeMsg ->
    (do y <- decode_err (l_deser the_lib k v Fdict) ; Ok (Some y)) = Ok (Some y) -> calm y).
  { intros k y Hk Hy. destruct (decode_err _) as [z|] eqn:E; [|discriminate]. cbn [bind] in Hy. injection Hy as <-. apply decode_ok in E.
    change (l_deser the_lib k v Fdict) with (deser_step (lib_n 11) k v Fdict) in E. destruct Hk as [-> | ->]; cbn [deser_step] in E.
    - unfold de_one_of in E. assert (V : exists v1, json_only v1 = true /\ dumps_unless_str v = Ok v1).
      { unfold dumps_unless_str in *. destruct v; try (eexists; split; [|reflexivity]; reflexivity);
          (destruct (json_dumps _) as [t|]; [eexists; split; [|reflexivity]; reflexivity|discriminate]). }
      destruct V as (v1 & J1 & V). rewrite V in E. cbn [bind] in E.
      destruct (deser_cls (lib_n 11) C_oidc_AddressClaim v1 Fjson) as [a|e] eqn:E1.
      + injection E as <-. exact (deser_calm _ _ _ _ _ address_table eq_refl J1 E1).
      + destruct e; try discriminate. destruct (deser_cls (lib_n 11) C_oidc_AddressClaim v1 Furl) as [a|e] eqn:E2; [|destruct e; discriminate].
        injection E as <-. exact (deser_calm _ _ _ _ _ address_table eq_refl J1 E2).
    - unfold de_msg in E. destruct v as [| | | |t| | |]; try discriminate;
        try (destruct (json_dumps _) as [t|]; [|discriminate]; cbn [bind] in E; exact (deser_calm _ _ (VStr t) _ _ empty_table eq_refl eq_refl E)). }
  destruct (p_deser s) as [k|] eqn:Ed; [|discriminate].
  assert (Hk : k = DeOneOf C_oidc_AddressClaim \/ k = DeMsg) by (destruct k; try discriminate; [right; reflexivity|left; destruct c; try discriminate; reflexivity]).
  destruct v; cbn [isinstance] in H; try discriminate; try (injection H as <-; left; reflexivity); exact (D k x Hk H).
Qed.

(** *** the entries of a token *)
Lemma payload_entry : forall L P k (Q : value -> Prop) l d d', (forall v x, In (k, v) l -> fd_entry L P k v = Ok (Some x) -> Q x) ->
  from_items L P d l = (d', Ok tt) -> (forall v, dget d k = Some v -> Q v) -> forall v, dget d' k = Some v -> Q v.
Proof.
  intros L P k Q. induction l as [|[k0 v0] l IH]; intros d d' F H Hd v Hv; cbn [from_items] in H; [injection H as <-; exact (Hd v Hv)|].
  assert (F' : forall v x, In (k, v) l -> fd_entry L P k v = Ok (Some x) -> Q x) by (intros a b Hin; apply F; right; exact Hin).
  destruct (fd_entry L P k0 v0) as [[x|]|e] eqn:Ef; [|exact (IH d d' F' H Hd v Hv)|discriminate].
  refine (IH (dset d k0 x) d' F' H _ v Hv). intros w Hw. rewrite dget_dset in Hw. destruct (ueqb k k0) eqn:Ek; [|exact (Hd w Hw)].
  apply ueqb_eq in Ek. subst k0. injection Hw as <-. apply (F v0 x); [left; reflexivity|exact Ef].
Qed.
Lemma entry_calm : forall P k v x, (forall k s, In (k, s) P -> plain_spec s || message_spec s = true) -> dget P (u "*") = None -> json_only v = true ->
  fd_entry the_lib P k v = Ok (Some x) -> calm x.
Proof.
  intros P k v x HP Hs J Ef. unfold fd_entry in Ef. destruct (is_blank v); [discriminate|].
  assert (A : forall k' s, dget P k' = Some s -> add_val the_lib s v = Ok (Some x) -> calm x).
  { intros k' s Hk Ha. apply dget_In, HP, orb_true_iff in Hk. destruct Hk as [Hp|Hm]; [left; exact (plain_add _ _ _ Hp J Ha)|exact (message_add _ _ _ Hm J Ha)]. }
  destruct (dget P k) as [s|] eqn:E1; [exact (A _ _ E1 Ef)|]. destruct (dget P (base_key k)) as [s|] eqn:E2; [exact (A _ _ E2 Ef)|].
  rewrite Hs in Ef. injection Ef as <-. left. exact J.
Qed.
Lemma entry_only : forall P k v x, (forall k s, In (k, s) P -> plain_spec s = true) -> dget P (u "*") = None -> json_only v = true ->
  fd_entry the_lib P k v = Ok (Some x) -> json_only x = true.
Proof.
  intros P k v x HP Hs J Ef. unfold fd_entry in Ef. destruct (is_blank v); [discriminate|].
  assert (A : forall k' s, dget P k' = Some s -> add_val the_lib s v = Ok (Some x) -> json_only x = true).
  { intros k' s Hk Ha. apply dget_In, HP in Hk. exact (plain_add _ _ _ Hk J Ha). }
  destruct (dget P k) as [s|] eqn:E1; [exact (A _ _ E1 Ef)|]. destruct (dget P (base_key k)) as [s|] eqn:E2; [exact (A _ _ E2 Ef)|].
  rewrite Hs in Ef. injection Ef as <-. exact J.
Qed.
Lemma t3 : forall A e, In e T3 -> within T3 (A := A) (Err e). Proof. intros A e H. apply within_err, H. Qed.
(** the text of a token in the log *)
Lemma log_calm : forall P k x, (forall k s, In (k, s) P -> plain_spec s || message_spec s = true) ->
  (calm x /\ forall s, In s (map snd P) -> p_ser s <> Some SerJson) \/ json_only x = true -> within T3 (td_entry to_dict_v (ser_of P k) x).
Proof.
  intros P k x HP Hx.
  assert (S : ser_of P k = None \/ ser_of P k = Some SerList \/ ser_of P k = Some SerMsg \/
    ser_of P k = Some SerJson /\ exists s, In s (map snd P) /\ p_ser s = Some SerJson).
  { assert (W : forall k' s, dget P k' = Some s -> p_ser s = None \/ p_ser s = Some SerList \/ p_ser s = Some SerMsg \/ p_ser s = Some SerJson /\ In s (map snd P)).
    { intros k' s Hk. apply dget_In in Hk. pose proof (HP _ _ Hk) as Hs. apply orb_true_iff in Hs. unfold plain_spec, message_spec in Hs.
      assert (I : In s (map snd P)) by (apply in_map_iff; exists (k', s); split; [reflexivity|exact Hk]).
      destruct (p_ser s) as [[]|]; auto; exfalso; destruct Hs as [Hs|Hs];
        repeat match type of Hs with context [match ?x with _ => _ end] => destruct x; try discriminate Hs end. }
    assert (W' : forall k' s, dget P k' = Some s -> p_ser s = None \/ p_ser s = Some SerList \/ p_ser s = Some SerMsg \/
      p_ser s = Some SerJson /\ exists s, In s (map snd P) /\ p_ser s = Some SerJson).
    { intros k' s Hk. destruct (W _ _ Hk) as [W1|[W1|[W1|[W1 W2]]]]; auto. right. right. right. split; [exact W1|]. exists s. auto. }
    unfold ser_of, spec_of. destruct (dget P k) as [s|] eqn:E1; [exact (W' _ _ E1)|]. destruct (dget P (base_key k)) as [s|] eqn:E2; [exact (W' _ _ E2)|].
    destruct (dget P (u "*")) as [s|] eqn:E3; [exact (W' _ _ E3)|left; reflexivity]. }
  destruct (json_only x) eqn:J.
  - destruct S as [-> |[-> |[-> |[-> _]]]]; cbn [td_entry].
    + rewrite (post_only _ _ J). apply within_ok.
    + destruct x; try (apply t3; cbn; tauto). rewrite (post_only _ _ J). apply within_ok.
    + cbn [ser_dict]. unfold msg_ser_dict. destruct x; try discriminate; try (apply t3; cbn; tauto); apply within_ok.
    + cbn [ser_dict]. unfold json_dumps. destruct (jerr x) as [e|] eqn:Ej; [|apply within_ok]. rewrite (jerr_only _ _ J Ej). apply t3. cbn. tauto.
  - destruct Hx as [[[Hx|(c & m & -> & Hm)] Hj]|Hx]; try congruence. destruct S as [-> |[-> |[-> |[_ (s & Hs & Hs')]]]]; cbn [td_entry].
    + exact Hm.
    + apply t3. cbn. tauto.
    + exact Hm.
    + destruct (Hj s Hs Hs').
Qed.
Lemma id_specs : forall k s, In (k, s) (cd_param (cdef C_oidc_IdToken)) -> plain_spec s || message_spec s = true.
Proof.
  assert (G : forallb (fun ks : ustr * pspec => plain_spec (snd ks) || message_spec (snd ks)) (cd_param (cdef C_oidc_IdToken)) = true) by (vm_compute; reflexivity).
  intros k s H. rewrite forallb_forall in G. exact (G _ H).
Qed.
Lemma id_no_json : forall s, In s (map snd (cd_param (cdef C_oidc_IdToken))) -> p_ser s <> Some SerJson.
Proof.
  assert (G : forallb (fun s => match p_ser s with Some SerJson => false | _ => true end) (map snd (cd_param (cdef C_oidc_IdToken))) = true) by (vm_compute; reflexivity).
  intros s H Hs. rewrite forallb_forall in G. specialize (G s H). rewrite Hs in G. discriminate.
Qed.
Lemma logout_specs : forall k s, In (k, s) (cd_param (cdef C_session_LogoutToken)) -> plain_spec s = true.
Proof.
  assert (G : forallb (fun ks : ustr * pspec => plain_spec (snd ks)) (cd_param (cdef C_session_LogoutToken)) = true) by (vm_compute; reflexivity).
  intros k s H. rewrite forallb_forall in G. exact (G _ H).
Qed.
Lemma log_all : forall C d, (forall k v, In (k, v) d -> within T3 (td_entry to_dict_v (ser_of (cd_param C) k) v)) -> within T3 (to_dict C d).
Proof.
  intros C d H. unfold to_dict. apply within_mapM. intros [k v] Hin. cbn [fst snd]. specialize (H k v Hin).
  destruct (td_entry _ _ v); [apply within_ok|]. apply within_err, H. reflexivity.
Qed.
Definition listed (v : value) : Prop := (exists l, v = VList (map VStr l)) \/ exists o, v = VDict o.
Definition token_ok (c : cls) (d : dict value) : Prop :=
  within T3 (to_dict (cdef c) d) /\
  (c = C_oidc_IdToken -> ok L_schema d /\
     (forall v, dget d (u "azp") = Some v -> v = VNone \/ is_text v) /\
     (forall v, dget d (u "exp") = Some v -> truthy v = true -> is_number v) /\
     (forall v, dget d (u "iat") = Some v -> truthy v = true -> is_number v)) /\
  (c = C_session_LogoutToken ->
     (forall v, dget d (u "events") = Some v -> truthy v = true -> is_object v) /\
     (forall v, dget d (u "iat") = Some v -> truthy v = true -> is_number v)) /\
  forall v, dget d (u "aud") = Some v -> listed v.
Lemma aud_form : forall v x, add_val the_lib sp06 v = Ok (Some x) -> listed x.
Proof.
  intros v x H. unfold add_val in H. cbv zeta in H. cbn [sp06 p_typ p_null p_deser] in H.
  destruct v as [| | | |t|l|o|]; cbn [isinstance andb negb] in H; try discriminate.
  - change (l_deser the_lib DeList (VStr t) Furl) with (@Ok value (VList (map VStr (split_on 32 t)))) in H. cbn [decode_err bind] in H. injection H as <-.
    left. eauto.
  - destruct (match l with [] | VNone :: _ => true | _ => false end) eqn:Eb.
    { exfalso. destruct l as [|[] l]; discriminate. }
    assert (H' : (do xs <- py_iter (VList l) ; if forallb (fun x => isinstance x TStr) xs then Ok (Some (VList l)) else Err EDecodeError) = Ok (Some x)).
    { destruct l as [|[] l]; try discriminate; exact H. }
    cbn [py_iter bind] in H'. destruct (forallb _ l) eqn:Ef; [|discriminate]. injection H' as <-. left.
    clear - Ef. induction l as [|y l IH]; [exists []; reflexivity|]. cbn [forallb] in Ef. apply andb_true_iff in Ef. destruct Ef as [A B].
    destruct (IH B) as [l' Hl]. destruct y; try discriminate. injection Hl as ->. exists (s :: l'). reflexivity.
  - injection H as <-. right. eauto.
Qed.
Lemma num_form : forall v x, add_val the_lib sp08 v = Ok (Some x) -> truthy x = true -> is_number x.
Proof.
  intros v x H Ht. unfold add_val in H. cbv zeta in H. cbn [sp08 p_typ p_null p_deser] in H.
  destruct v as [| | | |t|l|o|]; cbn [isinstance andb negb] in H; try discriminate.
  all: try (injection H as <-; first [discriminate Ht|apply int_number]).
  all: try (destruct (py_int _) as [z|[]]; try discriminate; injection H as <-; apply int_number).
  destruct l as [|[] l]; try discriminate; cbn [py_int] in H; discriminate.
Qed.
Lemma token_read : forall c b d, c = C_oidc_IdToken \/ c = C_session_LogoutToken -> claims_fine c b ->
  from_dict (cdef c) (cd_default (cdef c)) b = (d, Ok tt) -> token_ok c d.
Proof.
  intros c b d Hc (l & -> & J & Hn & He) H. apply all_only_iff in J.
  assert (Hd0 : cd_default (cdef c) = []) by (destruct Hc as [-> | ->]; reflexivity). rewrite Hd0 in H.
  unfold from_dict, from_dict_gen in H. cbn [items] in H.
  assert (Nd : NoDup (map fst d)) by exact (from_dict_nodup (cdef c) (VDict l) [] d (Ok tt) (NoDup_nil _) H).
  assert (HS : dget (cd_param (cdef c)) (u "*") = None) by (destruct Hc as [-> | ->]; vm_compute; reflexivity).
  assert (G : forall k (Q : value -> Prop), (forall v x, In (k, v) l -> fd_entry the_lib (cd_param (cdef c)) k v = Ok (Some x) -> Q x) -> forall v, dget d k = Some v -> Q v).
  { intros k Q F. refine (payload_entry _ _ _ Q l [] d F H _). discriminate. }
  assert (F : forall k s v x, dget (cd_param (cdef c)) k = Some s -> fd_entry the_lib (cd_param (cdef c)) k v = Ok (Some x) -> add_val the_lib s v = Ok (Some x)).
  { intros k s v x Hk Hx. unfold fd_entry in Hx. destruct (is_blank v); [discriminate|]. rewrite Hk in Hx. exact Hx. }
  assert (FT : forall k, dget (cd_param (cdef c)) k = Some sp00 -> In k [u "error_description"; u "birthdate"] -> forall v, dget d k = Some v -> is_text v).
  { intros k Hk Hi. apply G. intros v x Hin Hx. apply (F _ _ _ _ Hk) in Hx. apply text_add in Hx; [|reflexivity|reflexivity].
    destruct Hx as [[_ ->]|[t ->]]; [|exists t; reflexivity]. destruct (Hn k VNone Hin Hi eq_refl). }
  assert (FN : forall k, dget (cd_param (cdef c)) k = Some sp08 -> forall v, dget d k = Some v -> truthy v = true -> is_number v).
  { intros k Hk. apply (G k (fun v => truthy v = true -> is_number v)). intros v x Hin Hx. apply (F _ _ _ _ Hk) in Hx. exact (num_form v x Hx). }
  split; [|split; [|split]].
  - apply log_all. intros k v Hin. apply (In_dget _ _ _ Nd) in Hin. apply log_calm.
    + destruct Hc as [-> | ->]; [exact id_specs|]. intros k' s Hk'. apply orb_true_iff. left. exact (logout_specs _ _ Hk').
    + destruct Hc as [-> | ->].
      * left. split; [|exact id_no_json]. refine (G k calm _ v Hin). intros v0 x Hi Hx. refine (entry_calm _ _ _ _ id_specs HS _ Hx). exact (J _ _ Hi).
      * right. refine (G k (fun x => json_only x = true) _ v Hin). intros v0 x Hi Hx. refine (entry_only _ _ _ _ logout_specs HS _ Hx). exact (J _ _ Hi).
  - intros ->. split; [|split; [|split]].
    + intros k f v Hk. cbn [In L_schema] in Hk. destruct Hk as [Hk|[Hk|[]]]; injection Hk as <- <-; intro Hv.
      * left. refine (FT _ _ _ v Hv); [reflexivity|cbn [In]; tauto].
      * refine (FT _ _ _ v Hv); [reflexivity|cbn [In]; tauto].
    + apply G. intros v x Hin Hx. apply (F _ sp00) in Hx; [|reflexivity]. apply text_add in Hx; [|reflexivity|reflexivity].
      destruct Hx as [[-> _]|[t ->]]; [left; reflexivity|right; exists t; reflexivity].
    + apply FN. reflexivity.
    + apply FN. reflexivity.
  - intros ->. split; [|apply FN; reflexivity].
    apply (G (u "events") (fun v => truthy v = true -> is_object v)). intros v x Hi Hx Ht. apply (F _ sp19) in Hx; [|reflexivity].
    unfold add_val in Hx. cbv zeta in Hx. cbn [sp19 p_typ p_null p_deser] in Hx. destruct v as [| | | |t|lv|o|]; cbn [andb isinstance] in Hx; try discriminate.
    + injection Hx as <-. discriminate Ht.
    + destruct (decode_err _) as [y|] eqn:Ed; [|discriminate]. cbn [bind] in Hx. injection Hx as <-. apply decode_ok in Ed.
      change (json_loads t = Ok y) in Ed. exact (He t y eq_refl Hi Ed Ht).
    + exfalso. destruct (match lv with [] | VNone :: _ => true | _ => false end) eqn:Eb; [destruct lv as [|[] lv]; discriminate|].
      destruct lv as [|[] lv]; discriminate.
    + injection Hx as <-. exists o. reflexivity.
  - apply G. intros v0 x Hi Hx. apply (F _ sp06) in Hx; [exact (aud_form _ _ Hx)|destruct Hc as [-> | ->]; reflexivity].
Qed.

(** *** exceptions of the library, of an algorithm that is refused, or from outside *)
Definition told (E : env) {A} (r : res A) : Prop := forall e, r = Err e -> In e SA \/ e = EUnsupportedAlgorithm \/ from_outside E e.
Lemma told_ok : forall E A (x : A), told E (Ok x). Proof. intros E A x e H. discriminate. Qed.
Lemma told_err : forall E A e, In e SA -> told E (A := A) (Err e). Proof. intros E A e H e' X. injection X as <-. left. exact H. Qed.
Lemma told_alg : forall E A, told E (A := A) (Err EUnsupportedAlgorithm). Proof. intros E A e' X. injection X as <-. right. left. reflexivity. Qed.
Lemma told_within : forall E A (r : res A), within SA r -> told E r. Proof. intros E A r H e X. left. exact (H e X). Qed.
Lemma told_out : forall E A (r : res A), (forall e, r = Err e -> from_outside E e) -> told E r. Proof. intros E A r H e X. right. right. exact (H e X). Qed.
Lemma told_bind : forall E A B (r : res A) (f : A -> res B), told E r -> (forall x, r = Ok x -> told E (f x)) -> told E (bind r f).
Proof. intros E A B [x|e] f H H1 e' X; cbn [bind] in X; [exact (H1 x eq_refl e' X)|]. apply H. congruence. Qed.
Ltac te := apply told_err; cbn [In SA]; tauto.
Lemma told_checked : forall E A (r : res A) d f, told E r -> (forall x, r = Ok x -> told E (snd (f d))) -> told E (snd (checked r d f)).
Proof. intros E A [x|e] d f H H1; cbn [checked]; [exact (H1 x eq_refl)|]. intros e' X. cbn [snd] in X. apply H. congruence. Qed.
Lemma t3_sa : forall A (r : res A), within T3 r -> within SA r.
Proof. intros A r H. eapply within_incl; [|exact H]. intros e He. cbn [In T3 SA] in *. tauto. Qed.
Lemma jwt_told : forall E i c t vfy args, c = C_oidc_IdToken \/ c = C_session_LogoutToken -> well_formed E c t ->
  told E (from_jwt E i (cdef c) t true vfy args) /\
  forall d h, from_jwt E i (cdef c) t true vfy args = Ok (d, h) -> token_ok c d /\
    match e_jws E (VStr t) with Ok (Some tok) => h = Some (t_hdr tok) | _ => h = None end.
Proof.
  intros E i c t vfy args Hc (Hj & W1 & W2).
  assert (D : jwt_decrypt E i t args = Ok t) by (unfold jwt_decrypt; cbv zeta; rewrite Hj; reflexivity).
  assert (FD : forall b, claims_fine c b -> told E (ret_msg (from_dict (cdef c) (cd_default (cdef c)) b)) /\
    forall d, ret_msg (from_dict (cdef c) (cd_default (cdef c)) b) = Ok d -> token_ok c d).
  { intros b Hb. destruct (from_dict (cdef c) (cd_default (cdef c)) b) as [d' [[]|e]] eqn:Ef; cbn [ret_msg]; split.
    - apply told_ok.
    - intros d Hd. injection Hd as <-. exact (token_read c b d' Hc Hb Ef).
    - destruct Hb as (l & -> & _). apply dict_exceptions in Ef. apply told_err. cbn [In SA] in *. tauto.
    - discriminate. }
  unfold from_jwt. cbn [negb]. rewrite D. cbn [bind]. destruct (e_jws E (VStr t)) as [[tok|]|e] eqn:Ej; cbn [bind].
  - destruct (W1 tok eq_refl) as [[alg Ha] Wb]. destruct (t_body tok) as [b|e] eqn:Eb; cbn [bind].
    2: { split; [|discriminate]. apply told_out. intros e' X. injection X as <-. exact (OutPayload E e _ _ Ej Eb). }
    assert (JC : told E (jwt_check E i t tok vfy args)).
    { unfold jwt_check. rewrite Ha. destruct (py_eq (VStr alg) (VStr (u "none"))); [apply told_ok|]. destruct vfy; [|apply told_ok].
      assert (KS : forall up, told E (e_kj_keys E i up tok args)) by (intro up; apply told_out; intros e X; exact (OutKeys E e _ _ _ _ X)).
      apply told_bind; [destruct (e_kj_true E); [apply KS|apply told_ok]|]. intros key _. destruct key as [|k0 key]; [te|].
      assert (SG : forall ks, told E (e_sig E t (jwt_sigalg args) ks)) by (intro ks; apply told_out; intros e X; exact (OutSignature E e _ _ _ X)).
      pose proof (SG (k0 :: key)) as S0.
      destruct (e_sig E t (jwt_sigalg args) (k0 :: key)) as [[]|e]; [apply told_ok|].
      destruct e; try exact S0. destruct (e_kj_true E); [|apply told_ok].
      apply told_bind; [apply told_out; intros e X; exact (OutUpdate E e _ X)|]. intros _ _. apply told_bind; [apply KS|]. intros k2 _. apply SG. }
    destruct (FD b (Wb b eq_refl)) as [F1 F2]. split.
    + apply told_bind; [exact JC|]. intros _ _. apply told_bind; [exact F1|]. intros d _. apply told_ok.
    + intros d h H. destruct (jwt_check _ _ _ _ _ _); [|discriminate]. cbn [bind] in H. destruct (ret_msg _) as [d0|] eqn:Er; [|discriminate].
      cbn [bind] in H. injection H as <- <-. split; [exact (F2 d0 eq_refl)|reflexivity].
  - pose proof (loads_errors t) as LE. destruct (json_loads t) as [b|e] eqn:Eb; cbn [bind].
    2: { split; [|discriminate]. apply told_err. specialize (LE e eq_refl). cbn [In SJ SA] in *. tauto. }
    destruct (FD b (W2 eq_refl b eq_refl)) as [F1 F2]. split.
    + apply told_bind; [exact F1|]. intros d _. apply told_ok.
    + intros d h H. destruct (ret_msg _) as [d0|] eqn:Er; [|discriminate]. cbn [bind] in H. injection H as <- <-. split; [exact (F2 d0 eq_refl)|reflexivity].
  - split; [|discriminate]. apply told_out. intros e' X. injection X as <-. exact (OutParse E e _ Ej).
Qed.
Lemma form_in : forall a v, a = VNone \/ is_text a -> listed v -> exists b, py_in a v = Ok b.
Proof. intros a v [-> |[s ->]] [[l ->]|[o ->]]; cbn [py_in hashable]; eauto. Qed.
Lemma form_len : forall v, listed v -> exists n, py_len v = Ok n.
Proof. intros v [[l ->]|[o ->]]; cbn [py_len]; eauto. Qed.
Lemma required_truthy : forall C d k s b, verify_base C d = Ok b -> dget (cd_param C) k = Some s -> p_req s = true -> p_typ s <> TBool -> ueqb k (u "*") = false ->
  exists v, dget d k = Some v /\ truthy v = true.
Proof.
  intros C d k s b H Hk Hr Ht Hs. unfold verify_base in H. destruct (mapM _ _) as [l|e] eqn:Em; [|discriminate].
  destruct (proj1 (mapM_ok_iff _ _ _ _) (ex_intro _ l Em) (k, s) (dget_In _ _ _ Hk)) as (y & Hy). cbn [fst snd] in Hy. unfold verify_param in Hy.
  rewrite Hs in Hy. destruct (dget d k) as [v|]; [|rewrite Hr in Hy; discriminate]. exists v. split; [reflexivity|].
  destruct (truthy v) eqn:Ev; [reflexivity|]. exfalso. rewrite Hr in Hy. destruct (p_typ s); try discriminate. destruct (Ht eq_refl).
Qed.
Lemma id_told : forall E K d, token_ok C_oidc_IdToken d -> usual_args K -> within SA (idtoken_verify E K (cdef C_oidc_IdToken) d).
Proof.
  intros E K d (_ & H & _ & Ha) U. destruct (H eq_refl) as (Hs & Hz & Hx & Hi). unfold idtoken_verify.
  apply within_bind; [apply schema_raises, Hs|]. intros b0 Hb.
  assert (B : exists b, verify_base (cdef C_oidc_IdToken) d = Ok b).
  { unfold schema_verify, response_verify in Hb. destruct (verify_base (cdef C_oidc_IdToken) d); [eauto|discriminate]. }
  destruct B as [b B].
  destruct (required_truthy _ _ (u "exp") sp08 _ B) as (ve & Ee & Te); [reflexivity|reflexivity|discriminate|reflexivity|].
  destruct (required_truthy _ _ (u "iat") sp08 _ B) as (vi & Ei & Ti); [reflexivity|reflexivity|discriminate|reflexivity|].
  apply within_bind; [destruct (kget K (u "iss")), (dget d (u "iss")); try apply within_ok; ri|]. intros _ _.
  apply within_bind.
  { unfold idtoken_aud. destruct (dget d (u "aud")) as [v|] eqn:Ev; [|apply within_ok]. assert (T : listed v) by exact (Ha v eq_refl).
    apply within_bind.
    - destruct (kget K (u "client_id")) as [c|] eqn:Ek; [|apply within_ok]. destruct U as (_ & U & _).
      destruct (U (u "client_id") c) as [s ->]; [cbn [In]; tauto|exact Ek|]. unfold not_in. destruct (form_in (VStr s) v) as [b1 ->]; [right; exists s; reflexivity|exact T|].
      cbn [bind]. ri.
    - intros _ _. destruct (form_len v T) as [n ->]. cbn [bind]. destruct (1 <? n); [|apply within_ok].
      destruct (dget d (u "azp")) as [a|] eqn:Eq; [|sa]. unfold not_in. destruct (form_in a v (Hz a eq_refl) T) as [b1 ->]. cbn [bind]. ri. }
  intros _ _. apply within_bind; [destruct (dget d (u "azp")), (kget K (u "client_id")); try apply within_ok; ri|]. intros _ _.
  apply within_bind.
  { assert (X : idtoken_times E K d = idtoken_times E K [(u "exp", ve); (u "iat", vi)]).
    { unfold idtoken_times. rewrite Ee, Ei. reflexivity. }
    rewrite X. apply times_raises; [|exact U]. intros k f v Hk Hv. cbn [In L_id] in Hk.
    repeat (destruct Hk as [Hk|Hk]; [injection Hk as <- <-; try discriminate Hv|]); [| |destruct Hk].
    - injection Hv as <-. exact (Hx ve Ee Te).
    - change (Some vi = Some v) in Hv. injection Hv as <-. exact (Hi vi Ei Ti). }
  intros _ _. apply within_bind; [destruct (kget K (u "nonce")), (dget d (u "nonce")); try apply within_ok; ri|]. intros _ _. apply within_ok.
Qed.
Lemma logout_told : forall E K hdr d, token_ok C_session_LogoutToken d -> usual_args K -> within SA (logout_token_verify E K (cdef C_session_LogoutToken) hdr d).
Proof.
  intros E K hdr d (_ & _ & H & Ha) U. destruct (H eq_refl) as (He & Hi).
  unfold logout_token_verify. apply within_bind; [apply base_raises|]. intros b B.
  destruct (required_truthy _ _ (u "events") sp19 _ B) as (ev & I1 & Tv); [reflexivity|reflexivity|discriminate|reflexivity|].
  destruct (required_truthy _ _ (u "iat") sp08 _ B) as (vi & Ei & Ti); [reflexivity|reflexivity|discriminate|reflexivity|].
  apply within_bind; [ri|]. intros _ _. unfold getitem. rewrite I1. cbn [bind]. destruct (He ev I1 Tv) as [l ->].
  apply within_bind.
  { cbn [events_check]. destruct l as [|[k x] [|y l]]; try sa. destruct (ueqb k logout_event); [ri|sa]. }
  intros _ _. apply within_bind; [ri|]. intros _ _. pose proof U as U0. destruct U0 as (_ & U1 & U2).
  apply within_bind.
  { destruct (kget K (u "aud")) as [a|] eqn:Ea; [|apply within_ok]. destruct (dget d (u "aud")) as [v|] eqn:Ev; [|apply within_ok].
    assert (T : listed v) by exact (Ha v eq_refl). destruct (U1 (u "aud") a) as [s ->]; [cbn [In]; tauto|exact Ea|].
    unfold not_in. destruct (form_in (VStr s) v) as [b1 ->]; [right; exists s; reflexivity|exact T|]. cbn [bind]. ri. }
  intros _ _. apply within_bind; [destruct (kget K (u "iss")), (dget d (u "iss")); try apply within_ok; ri|]. intros _ _.
  apply within_bind.
  { rewrite Ei.
    apply (cmp_raises py_add (fun x y => py_gt y x)); auto using add_fine, gt_fine', now_number; [apply skew_number; [exact U|cbn [In]; tauto]|cbn [In SA]; tauto]. }
  intros _ _. rewrite U2. apply within_ok.
Qed.

(** *** verify_id_token *)
Lemma alg_told : forall E K tok alg, dget (t_hdr tok) (u "alg") = Some (VStr alg) -> told E (alg_check K tok).
Proof.
  intros E K tok alg H. unfold alg_check. rewrite H. destruct (py_eq (VStr alg) _).
  - destruct (py_eq _ _); [apply told_ok|]. destruct (karg K (u "allow_sign_alg_none") (VBool false)) as [|[]| | | | | |]; first [apply told_ok|apply told_alg].
  - destruct (kget K (u "allowed_sign_alg")); [|apply told_ok]. destruct (py_ne _ _); [apply told_alg|apply told_ok].
Qed.
Lemma check_told : forall E i K ch claim msg t, usual_args K -> kw_jar K = true -> dget msg claim = Some (VStr t) -> well_formed E C_oidc_IdToken t ->
  told E (check_id_token E i K ch claim msg) /\ forall idt, check_id_token E i K ch claim msg = Ok (Some idt) -> within SA (to_dict (cdef C_oidc_IdToken) idt).
Proof.
  intros E i K ch claim msg t U Kj Ht W. unfold check_id_token, getitem. rewrite Ht. cbn [bind].
  destruct (e_jws E (VStr t)) as [[tok|]|e] eqn:Ej; cbn [bind].
  2: { split; [te|discriminate]. }
  2: { split; [apply told_out; intros e' X; injection X as <-; exact (OutParse E e _ Ej)|discriminate]. }
  pose proof W as (Hj & W1 & _). destruct (W1 tok Ej) as [[alg Ha] Wb]. clear W1.
  pose proof (alg_told E K tok alg Ha) as A. destruct (alg_check K tok) as [signed|e]; cbn [bind].
  2: { split; [intros e' X; injection X as <-; apply A; reflexivity|discriminate]. }
  destruct (t_body tok) as [b|e] eqn:Eb; cbn [bind].
  2: { split; [apply told_out; intros e' X; injection X as <-; exact (OutPayload E e _ _ Ej Eb)|discriminate]. }
  assert (I : told E (issuer_check E K signed b)).
  { unfold issuer_check. destruct (signed && kw_jar K); [|apply told_ok]. destruct (Wb b eq_refl) as (l & -> & _). cbn [py_item].
    destruct (dget l (u "iss")) as [x|]; cbn [bind]; [|te]. destruct (e_kj_in E x) as [[]|e] eqn:Ek; [apply told_ok|te|].
    assert (O : from_outside E e) by exact (OutIssuer E e x Ek).
    destruct e; try (intros e' X; injection X as <-; right; right; exact O). te. }
  destruct (issuer_check E K signed b) as [[]|e]; cbn [bind].
  2: { split; [intros e' X; injection X as <-; apply I; reflexivity|discriminate]. }
  change (py_str_e E (VStr t)) with (@Ok ustr t). cbn [bind]. rewrite Kj.
  destruct (jwt_told E i C_oidc_IdToken t (verify_arg K) (id_token_args K) (or_introl eq_refl) W) as [J1 J2].
  destruct (from_jwt E i (cdef C_oidc_IdToken) t true (verify_arg K) (id_token_args K)) as [[idt hdr]|e]; cbn [bind].
  2: { split; [intros e' X; injection X as <-; apply J1; reflexivity|discriminate]. }
  destruct (J2 idt hdr eq_refl) as [T Hh]. rewrite Ej in Hh. subst hdr.
  pose proof (id_told E K idt T U) as V. destruct (idtoken_verify E K (cdef C_oidc_IdToken) idt) as [[]|e]; cbn [bind].
  3: { split; [intros e' X; injection X as <-; left; apply V; reflexivity|discriminate]. }
  2: { split; [apply told_ok|discriminate]. }
  assert (Hs : told E (if signed && ch then hashes_check E msg idt (Some (t_hdr tok)) else Ok tt)).
  { destruct (signed && ch); [|apply told_ok]. unfold hashes_check. rewrite Ha. cbv zeta.
    assert (HC : forall p a f e, In e SA -> told E (hash_check E msg idt p a f e)).
    { intros p a f e He. unfold hash_check. destruct (dget msg p) as [x|]; [|apply told_ok]. destruct (dget idt a) as [h|]; [|te].
      apply told_bind; [apply told_out; intros e' X; exact (OutHash E e' _ _ X)|]. intros y _. apply told_within, raise_if_within, He. }
    apply told_bind; [apply HC; cbn [In SA]; tauto|]. intros _ _. apply HC. cbn [In SA]; tauto. }
  destruct (if signed && ch then _ else _) as [[]|e]; cbn [bind].
  - split; [apply told_ok|]. intros idt' X. injection X as <-. apply t3_sa. apply T.
  - split; [intros e' X; injection X as <-; apply Hs; reflexivity|discriminate].
Qed.
Lemma verify_id_told : forall E i K c ch claim msg t, usual_args K -> kw_jar K = true -> dget msg claim = Some (VStr t) -> well_formed E C_oidc_IdToken t ->
  In claim [u "id_token"; u "id_token_hint"] -> told E (snd (verify_id_token E i K (cdef c) ch claim msg)).
Proof.
  intros E i K c ch claim msg t U Kj Ht W Hc. unfold verify_id_token. destruct (check_told E i K ch claim msg t U Kj Ht W) as [C1 C2].
  destruct (check_id_token E i K ch claim msg) as [[idt|]|e]; cbn [snd]; [|apply told_ok|intros e' X; injection X as <-; apply C1; reflexivity].
  rewrite setitem_slot by (cbn [In] in Hc; destruct Hc as [<-|[<-|[]]]; [left; reflexivity|right; right; left; reflexivity]). cbn [andthen].
  specialize (C2 idt eq_refl). destruct (to_dict (cdef C_oidc_IdToken) idt) as [r|e]; cbn [snd]; [apply told_ok|].
  intros e' X. injection X as <-. left. apply C2. reflexivity.
Qed.

Lemma clear_tokens : forall E d, tokens_well_formed E d -> tokens_well_formed E (clear_verified d).
Proof.
  intros E d H k c v Hk Hv. rewrite dget_clear in Hv. destruct (_ || _ || _); [discriminate|]. exact (H k c v Hk Hv).
Qed.
Lemma with_told : forall E K c ch d, usual_args K -> kw_jar K = true -> tokens_well_formed E d -> told E (snd (with_id_token E K (cdef c) ch d)).
Proof.
  intros E K c ch d U Kj T. unfold with_id_token. destruct (dhas d (u "id_token")) eqn:Eh; [|apply told_ok]. unfold dhas in Eh.
  destruct (dget d (u "id_token")) as [v|] eqn:Ev; [|discriminate]. destruct (T (u "id_token") C_oidc_IdToken v) as (t & -> & W); [left; reflexivity|exact Ev|].
  apply (verify_id_told E 0 K c ch (u "id_token") d t U Kj Ev W). left. reflexivity.
Qed.
Theorem token_raises : forall E K hdr c d, assurance c = false -> usual_args K -> kw_jar K = true -> as_expected c d -> openid_supported c d ->
  dget d (u "request") = None -> tokens_well_formed E d -> told E (snd (verify E K hdr c d)).
Proof.
  intros E K hdr c d Ha U Kj H0 O Rq T. pose proof (expected_ok c d H0) as H. unfold class_list in H. unfold verify, pure. cbv zeta. pose proof (kind_requires c) as R.
  assert (As : match vkind_of c with KEvidence | KVerificationRequest | KVerifiedClaimsRequest | KIdaClaims => assurance c | _ => false end = false).
  { destruct (vkind_of c); try reflexivity; exact Ha. }
  assert (As' : match vkind_of c with KEvidence | KVerificationRequest | KVerifiedClaimsRequest | KIdaClaims => assurance c | _ => true end = true).
  { clear. destruct c; vm_compute; reflexivity. }
  assert (Kr : vkind_of c = KRegistration -> c = C_oidc_RegistrationRequest).
  { clear. intro H. destruct c; first [reflexivity|exfalso; vm_compute in H; discriminate]. }
  pose proof (clear_tokens E d T) as T'.
  assert (Rq' : dget (clear_verified d) (u "request") = None) by (rewrite dget_clear; destruct (_ || _ || _); [reflexivity|exact Rq]).
  destruct (vkind_of c) eqn:Ek; try congruence; pose proof (clear_ok _ _ H) as H'.
  - apply told_within, base_raises.
  - apply told_within, response_raises, H.
  - apply told_within, authz_response_raises, H.
  - unfold jar_verify. rewrite Rq. destruct (dhas d (u "request_uri")); cbn [snd]; [apply told_ok|te].
  - unfold par_verify. rewrite Rq. apply told_ok.
  - unfold oidc_token_response_verify. apply told_checked; [apply told_within, response_raises; sub H|]. intros _ _. apply with_told; assumption.
  - unfold oidc_authz_response_verify. apply told_checked; [apply told_within, authz_response_raises; sub H|]. intros _ _. cbv zeta.
    destruct (dget (clear_verified d) (u "aud")) as [v|] eqn:Ev; [|apply with_told; assumption]. destruct (kget K (u "client_id")) as [k|] eqn:Eq; [|apply with_told; assumption].
    assert (X : is_texts v) by ex H'. pose proof U as (_ & U1 & _). destruct (U1 (u "client_id") k) as [s ->]; [cbn [In]; tauto|exact Eq|].
    unfold not_in. destruct (texts_in s v X) as [b ->]. cbn [bind]. destruct (negb b); [apply told_ok|apply with_told; assumption].
  - unfold oidc_authz_request_verify. apply told_checked; [apply told_within, base_raises|]. intros b B. cbv zeta.
    destruct (required_there _ _ _ _ B R) as [cl Cl].
    assert (A : exists args, authz_args K (clear_verified d) = Ok args).
    { unfold authz_args. destruct (khas K (u "opponent_id")); [eauto|]. rewrite dget_clear. change (ueqb (u "client_id") slot_id_token || _ || _) with false. rewrite Cl. eauto. }
    destruct A as [args ->]. unfold request_step. rewrite Rq'. cbn [andthen]. unfold hint_step.
    destruct (dget (clear_verified d) (u "id_token_hint")) as [v|] eqn:Ev; [|cbn [andthen snd]; apply told_within, rules_raises, H'].
    destruct (T' (u "id_token_hint") C_oidc_IdToken v) as (t & -> & W); [right; left; reflexivity|exact Ev|]. rewrite Kj.
    destruct (jwt_told E 1 C_oidc_IdToken t true args (or_introl eq_refl) W) as [J1 _].
    destruct (from_jwt E 1 (cdef C_oidc_IdToken) t true true args) as [[idt h]|e]; [|cbn [andthen snd]; intros e' X; injection X as <-; apply J1; reflexivity].
    rewrite setitem_slot by (cbn [In]; tauto). cbn [andthen snd]. apply told_within, rules_raises.
    intros k f v Hk Hv. rewrite dget_dset in Hv. destruct (ueqb k (u "verified_id_token_hint")) eqn:Eq; [|exact (H' k f v Hk Hv)].
    apply ueqb_eq in Eq. subst k. exfalso. clear - Hk. cbn [In L_request] in Hk. destruct Hk as [Hk|[Hk|[Hk|[]]]]; discriminate.
  - apply told_within, schema_raises, H.
  - rewrite (Kr eq_refl). apply told_within, registration_raises, H.
  - unfold registration_response_verify. apply told_within, within_bind; [apply response_raises; sub H|]. intros _ _. destruct (xorb _ _); [sa|apply within_ok].
  - apply told_within, idtoken_raises; assumption.
  - unfold mwit_verify. apply told_checked; [apply told_within; unfold mwit_super; destruct (subclass c C_oauth2_ResponseMessage); [apply response_raises, H|apply base_raises]|].
    intros _ _. apply with_told; assumption.
  - apply told_within, provider_raises; assumption.
  - apply told_within, jwt_raises; assumption.
  - unfold end_session_verify. apply told_checked; [apply told_within, base_raises|]. intros _ _. cbv zeta.
    destruct (dget (clear_verified d) (u "id_token_hint")) as [v|] eqn:Ev; [|apply told_ok].
    destruct (T' (u "id_token_hint") C_oidc_IdToken v) as (t & -> & W); [right; left; reflexivity|exact Ev|]. rewrite Kj.
    change (py_str_e E (VStr t)) with (@Ok ustr t). cbn [bind].
    destruct (jwt_told E 0 C_oidc_IdToken t (verify_arg K) (id_token_args K) (or_introl eq_refl) W) as [J1 _].
    destruct (from_jwt E 0 (cdef C_oidc_IdToken) t true (verify_arg K) (id_token_args K)) as [[idt h]|e]; [|cbn [snd]; intros e' X; injection X as <-; apply J1; reflexivity].
    assert (V : told E (snd (verify_id_token E 1 K (cdef c) false (u "id_token_hint") (clear_verified d))))
      by (apply (verify_id_told E 1 K c false (u "id_token_hint") _ t U Kj Ev W); right; left; reflexivity).
    destruct (verify_id_token E 1 K (cdef c) false (u "id_token_hint") (clear_verified d)) as [d2 [[]|e]]; cbn [andthen snd] in *.
    + rewrite setitem_slot by (right; right; left; reflexivity). cbn [andthen snd]. apply told_ok.
    + apply told_ok.
    + intros e' X. injection X as <-. apply V. reflexivity.
  - apply told_within, logout_raises; assumption.
  - unfold backchannel_verify. apply told_checked; [apply told_within, base_raises|]. intros b B. destruct (required_there _ _ _ _ B R) as [v Hv].
    unfold getitem. rewrite Hv. destruct (T (u "logout_token") C_session_LogoutToken v) as (t & -> & W); [right; right; left; reflexivity|exact Hv|]. rewrite Kj.
    change (py_str_e E (VStr t)) with (@Ok ustr t). cbn [bind].
    destruct (jwt_told E 0 C_session_LogoutToken t (verify_arg K) (id_token_args K) (or_intror eq_refl) W) as [J1 J2].
    destruct (from_jwt E 0 (cdef C_session_LogoutToken) t true (verify_arg K) (id_token_args K)) as [[lt h]|e]; [|cbn [snd]; intros e' X; injection X as <-; apply J1; reflexivity].
    destruct (J2 lt h eq_refl) as [Tk _]. pose proof (logout_told E K h lt Tk U) as V.
    destruct (logout_token_verify E K (cdef C_session_LogoutToken) h lt) as [[]|e]; cbn [snd]; [|apply told_ok|intros e' X; injection X as <-; left; apply V; reflexivity].
    rewrite setitem_slot by (right; right; right; right; left; reflexivity). cbn [andthen]. pose proof (t3_sa _ _ (proj1 Tk)) as Z.
    destruct (to_dict (cdef C_session_LogoutToken) lt) as [r|e]; cbn [snd]; [apply told_ok|]. intros e' X. injection X as <-. left. apply Z. reflexivity.
  - unfold device_verify. apply told_within, within_bind; [apply base_raises|]. intros _ _. apply within_bind; [|intros; apply within_ok].
    destruct (dhas d (u "device_code")); [|apply within_ok]. apply within_bind; [ri|]. intros _ _. ri.
Qed.
Theorem c163 : forall E K hdr c d d' e, assurance c = false -> usual_args K -> kw_jar K = true -> as_expected c d -> openid_supported c d ->
  dget d (u "request") = None -> tokens_well_formed E d -> verify E K hdr c d = (d', Err e) ->
  anticipated e \/ e = EUnsupportedAlgorithm \/ from_outside E e \/ e = OutOfModel.
Proof.
  intros E K hdr c d d' e Ha U Kj H O R T V. pose proof (token_raises E K hdr c d Ha U Kj H O R T e) as W. rewrite V in W. specialize (W eq_refl).
  destruct W as [W|[W|W]]; [|auto|auto]. unfold anticipated. cbn [In SA] in *. assert (X : OutOfModel = e -> e = OutOfModel) by congruence. tauto.
Qed.
Theorem c163_query : forall E K hdr c q d d' e, assurance c = false -> comes_in_token c = false -> usual_args K -> kw_jar K = true ->
  from_urlencoded (cdef c) (cd_default (cdef c)) q = (d, Ok tt) -> openid_supported c d -> dget d (u "request") = None -> tokens_well_formed E d ->
  verify E K hdr c d = (d', Err e) -> anticipated e \/ e = EUnsupportedAlgorithm \/ from_outside E e \/ e = OutOfModel.
Proof. intros E K hdr c q d d' e Ha Hc U Kj Q O R T V. eapply c163; eauto. eapply query_expected; eassumption. Qed.
