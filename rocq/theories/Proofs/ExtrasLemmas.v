(** add_non_standard; the storages of a context. *)
From Coq Require Import List NArith ZArith Bool String Lia.
From Verif Require Import Base.Ustr Base.UstrLemmas Base.Percent Model.Cls Model.Value Model.Pspec Model.Tables Model.Message Model.Env Model.Verify Model.Config Model.Tenants
  Spec.MessageSpec Spec.UnknownSpec Spec.StorageSpec Spec.TenantSpec Spec.ContextStorageSpec Proofs.ValueLemmas Proofs.MessageLemmas Proofs.StorageMore Proofs.TenantLemmas Proofs.UnknownLemmas Proofs.GrammarLemmas.
Import ListNotations.
Open Scope list_scope.
Open Scope N_scope.

Lemma fold_extras : forall C1 l d k, NoDup (map fst l) ->
  dget (fold_left (fun d (kv : ustr * value) => if dhas (cd_param C1) (fst kv) then d else fst (setitem C1 d (fst kv) (snd kv))) l d) k =
  if dhas (cd_param C1) k then dget d k else match dget l k with Some v => Some v | None => dget d k end.
Proof.
  intros C1 l. induction l as [|[a v] l IH]; intros d k Hn; [cbn [fold_left dget]; destruct (dhas _ k); reflexivity|].
  cbn [map fst] in Hn. inversion Hn as [|? ? Ha Hl]; subst. cbn [fold_left fst snd]. rewrite IH by assumption.
  destruct (dhas (cd_param C1) k) eqn:Ek.
  - destruct (dhas (cd_param C1) a) eqn:Ea; [reflexivity|]. unfold setitem. apply dhas_false in Ea. rewrite Ea. cbn [fst]. rewrite dget_dset_other; [reflexivity|].
    intros ->. apply dhas_true in Ek. destruct Ek as [x Ek]. congruence.
  - cbn [dget]. destruct (ueqb k a) eqn:E.
    + apply ueqb_eq in E. subst a. rewrite Ek. assert (dget l k = None) as -> by (apply dget_None; exact Ha).
      unfold setitem. apply dhas_false in Ek. rewrite Ek. cbn [fst]. apply dget_dset_same.
    + destruct (dget l k); [reflexivity|]. destruct (dhas (cd_param C1) a) eqn:Ea; [reflexivity|]. unfold setitem. apply dhas_false in Ea. rewrite Ea. cbn [fst].
      apply dget_dset_other. intros ->. rewrite ueqb_refl in E. discriminate.
Qed.
Lemma extra_nodup : forall C d, NoDup (map fst (extra C d)).
Proof. intros C d. unfold extra. apply dict_of_nodup_keys. Qed.
Lemma carried : forall C1 C2 d1 d2 k, NoDup (map fst d2) ->
  dget (add_non_standard C1 C2 d1 d2) k =
  if dhas (cd_param C1) k then dget d1 k else if dhas (cd_param C2) k then dget d1 k else match dget d2 k with Some v => Some v | None => dget d1 k end.
Proof.
  intros C1 C2 d1 d2 k Hn. unfold add_non_standard. rewrite fold_extras by apply extra_nodup. rewrite extra_get by assumption.
  destruct (dhas (cd_param C1) k); [reflexivity|]. destruct (dhas (cd_param C2) k); reflexivity.
Qed.
Lemma carried_nodup : forall C1 C2 d1 d2, NoDup (map fst d1) -> NoDup (map fst (add_non_standard C1 C2 d1 d2)).
Proof.
  intros C1 C2 d1 d2. unfold add_non_standard. generalize (extra C2 d2). intro l. revert d1. induction l as [|[k v] l IH]; intros d1 H; [exact H|].
  cbn [fold_left fst snd]. apply IH. destruct (dhas (cd_param C1) k) eqn:E; [exact H|]. unfold setitem. apply dhas_false in E. rewrite E. cbn [fst]. apply dset_nodup. exact H.
Qed.
Lemma extras : forall C1 C2 d1 d2 k, NoDup (map fst d2) ->
  (In k (map fst (cd_param C1)) \/ In k (map fst (cd_param C2)) \/ dget d2 k = None -> dget (add_non_standard C1 C2 d1 d2) k = dget d1 k) /\
  (~ In k (map fst (cd_param C1)) -> ~ In k (map fst (cd_param C2)) -> forall v, dget d2 k = Some v -> dget (add_non_standard C1 C2 d1 d2) k = Some v).
Proof.
  intros C1 C2 d1 d2 k Hn. rewrite carried by assumption. rewrite <- !dhas_In. split.
  - intros [H|[H|H]]; rewrite H; [reflexivity| |]; destruct (dhas (cd_param C1) k); try reflexivity. destruct (dhas (cd_param C2) k); reflexivity.
  - intros H1 H2 v H. apply not_true_is_false in H1, H2. rewrite H1, H2, H. reflexivity.
Qed.
Lemma extras_twice : forall C1 C2 d1 d2 k, NoDup (map fst d2) ->
  dget (add_non_standard C1 C2 (add_non_standard C1 C2 d1 d2) d2) k = dget (add_non_standard C1 C2 d1 d2) k.
Proof.
  intros C1 C2 d1 d2 k Hn. rewrite !carried by assumption. destruct (dhas (cd_param C1) k); [reflexivity|]. destruct (dhas (cd_param C2) k); [reflexivity|]. destruct (dget d2 k); reflexivity.
Qed.
Lemma extras_verify : forall E K hdr c C2 d1 d2, NoDup (map fst d1) -> NoDup (map fst d2) ->
  (forall k v, known c k = true -> ~ In k (map fst (cd_param (cdef c))) -> ~ In k (map fst (cd_param C2)) -> dget d2 k <> Some v) ->
  (forall k v, dget d1 k = Some v \/ dget d2 k = Some v -> known c k = false -> ordinary v) ->
  (subclass c C_oidc_AuthorizationRequest = true -> json_payloads E) ->
  same_outcome c (known c) (verify E K hdr c d1) (verify E K hdr c (add_non_standard (cdef c) C2 d1 d2)).
Proof.
  intros E K hdr c C2 d1 d2 H1 H2 Hk Ho Hj. apply unknown; [exact H1|apply carried_nodup; exact H1|auto| |exact Hj]. split.
  - intros k Kn. symmetry. rewrite carried by assumption. destruct (dhas (cd_param (cdef c)) k) eqn:E1; [reflexivity|]. destruct (dhas (cd_param C2) k) eqn:E2; [reflexivity|].
    destruct (dget d2 k) as [v|] eqn:E3; [|reflexivity]. exfalso. apply (Hk k v Kn); [| |exact E3]; rewrite <- dhas_In; congruence.
  - intros k v Kn [H|H]; [apply (Ho k v); auto|]. rewrite carried in H by assumption. destruct (dhas (cd_param (cdef c)) k); [apply (Ho k v); auto|]. destruct (dhas (cd_param C2) k); [apply (Ho k v); auto|].
    destruct (dget d2 k) as [w|] eqn:E3; [|apply (Ho k v); auto]. injection H as ->. apply (Ho k v); auto.
Qed.

(** ** storages of a context *)
Section Storages.
Variables (db : dict value) (iss q : ustr).
Hypothesis HS : sections db.
Hypothesis Hi : iss <> [].
Hypothesis Hq : quote_plus iss = Some q.
Lemma conf_issued : db <> [] -> exists r, ctx_db_conf (config_of db iss) = Ok (VDict r) /\ r <> [] /\
  (forall k, dget db k = None -> dget r k = None) /\
  (forall k s, k <> u "abstract_storage_cls" -> dget db k = Some (VDict s) -> exists s', dget r k = Some (VDict s') /\ dget s' (u "issuer") = Some (VStr q) /\
     forall x, x <> u "issuer" -> dget s' x = dget s x).
Proof.
  intro Hd. destruct HS as [Hn Hs]. destruct (issuer_conf db iss q Hq) as (r & R1 & R2 & R3).
  { apply Forall_forall. intros [k v] H. cbn [fst snd]. exact (Hs k v H). }
  exists r. split; [|split; [|split]].
  - unfold ctx_db_conf. change (conf_get (config_of db iss) (u "db_conf")) with (VDict db). change (conf_get (config_of db iss) (u "issuer")) with (VStr iss).
    replace (truthy (VDict db)) with true by (destruct db; [congruence|reflexivity]). replace (truthy (VStr iss)) with true by (destruct iss; [congruence|reflexivity]).
    cbn [andb]. rewrite R1. reflexivity.
  - intros ->. destruct db; [congruence|discriminate R2].
  - intros k Hk. apply dget_None. rewrite R2. apply dget_None. exact Hk.
  - intros k s Hk D1. destruct (dget r k) as [v|] eqn:E.
    + apply dget_In in E. destruct (R3 _ _ E) as (v0 & A & _ & B). destruct B as (d0 & d' & -> & -> & B1 & B2); [exact Hk|].
      apply (In_dget _ _ _ Hn) in A. rewrite A in D1. injection D1 as ->. exists d'. split; [reflexivity|]. split; assumption.
    + exfalso. apply dget_None in E. apply E. rewrite R2. apply dget_Some_iff. eauto.
Qed.
Lemma factory_issued : forall s s' h, dget s' (u "issuer") = Some (VStr q) -> (forall x, x <> u "issuer" -> dget s' x = dget s x) ->
  dget s (u "handler") = Some (VStr h) -> h <> [] -> exists c, storage_factory (VDict s') = Ok (Handler (VStr h) c) /\ given_to s q c.
Proof.
  intros s s' h H1 H2 Hh Hn. exists (ddel s' (u "handler")). split.
  - unfold storage_factory. rewrite (H2 (u "handler")), Hh by discriminate. destruct h; [congruence|reflexivity].
  - intro k. rewrite dget_ddel. destruct (ueqb k (u "handler")); [reflexivity|]. destruct (ueqb k (u "issuer")) eqn:E; [apply ueqb_eq in E; subst k; exact H1|].
    apply H2. intros ->. rewrite ueqb_refl in E. discriminate.
Qed.
Lemma truthy_dict : forall s k (v : value), dget s k = Some v -> truthy (VDict s) = true.
Proof. intros [|x s] k v H; [discriminate|reflexivity]. Qed.
Lemma data_storage : forall s h, section_for db (u "default") s h -> exists c, ctx_storage (config_of db iss) = Ok (Handler (VStr h) c) /\ given_to s q c.
Proof.
  intros s h (D & Hh & Hn). destruct conf_issued as (r & R1 & R2 & _ & R4). { intros X. rewrite X in D. discriminate. }
  destruct (R4 (u "default") s ltac:(discriminate) D) as (s' & E1 & E2 & E3). destruct (factory_issued s s' h E2 E3 Hh Hn) as (c & F & G). exists c. split; [|exact G].
  unfold ctx_storage. rewrite R1. cbn [bind]. assert (T : truthy (VDict r) = true) by (destruct r; [congruence|reflexivity]). rewrite T. unfold conf_get. rewrite E1, (truthy_dict _ _ _ E2).
  unfold init_storage. rewrite T. unfold get_storage_conf. rewrite T, E1, (truthy_dict _ _ _ E2). cbn [bind]. rewrite (truthy_dict _ _ _ E2). exact F.
Qed.
Lemma data_memory : dget db (u "default") = None -> ctx_storage (config_of db iss) = Ok (InMemory (u "default")).
Proof.
  intro D. destruct db as [|x db0] eqn:Ed; [reflexivity|]. rewrite <- Ed in *. destruct conf_issued as (r & R1 & R2 & R3 & _). { rewrite Ed. discriminate. }
  unfold ctx_storage. rewrite R1. cbn [bind]. assert (T : truthy (VDict r) = true) by (destruct r; [congruence|reflexivity]). rewrite T. unfold conf_get. rewrite (R3 _ D). reflexivity.
Qed.
Lemma key_storage_of : forall name s h, (name = u "keyjar" \/ name = u "default" /\ dget db (u "keyjar") = None) -> section_for db name s h ->
  exists c, ctx_key_storage (config_of db iss) = Ok (Some (Handler (VStr h) c)) /\ given_to s q c.
Proof.
  intros name s h Hname (D & Hh & Hn). destruct conf_issued as (r & R1 & R2 & R3 & R4). { intros X. rewrite X in D. discriminate. }
  assert (Na : name <> u "abstract_storage_cls") by (destruct Hname as [->|[-> _]]; discriminate).
  destruct (R4 _ s Na D) as (s' & E1 & E2 & E3). destruct (factory_issued s s' h E2 E3 Hh Hn) as (c & F & G). exists c. split; [|exact G].
  unfold ctx_key_storage. rewrite R1. cbn [bind]. assert (T : truthy (VDict r) = true) by (destruct r; [congruence|reflexivity]). rewrite T. unfold get_storage_conf. rewrite T.
  assert (X : (if truthy (match dget r (u "keyjar") with Some v => v | None => VNone end) then Ok (match dget r (u "keyjar") with Some v => v | None => VNone end)
     else if negb (ueqb (u "keyjar") (u "default")) then Ok (match dget r (u "default") with Some v => v | None => VNone end) else Err EConfigurationError) = Ok (VDict s')).
  { destruct Hname as [->|[-> Hk]]; [rewrite E1, (truthy_dict _ _ _ E2); reflexivity|]. rewrite (R3 _ Hk), E1. reflexivity. }
  cbv zeta. rewrite X. cbn [bind]. rewrite (truthy_dict _ _ _ E2), F. reflexivity.
Qed.
Lemma key_storage_none : dget db (u "keyjar") = None -> dget db (u "default") = None -> ctx_key_storage (config_of db iss) = Ok None.
Proof.
  intros Hk D. destruct db as [|x db0] eqn:Ed; [reflexivity|]. rewrite <- Ed in *. destruct conf_issued as (r & R1 & R2 & R3 & _). { rewrite Ed. discriminate. }
  unfold ctx_key_storage. rewrite R1. cbn [bind]. assert (T : truthy (VDict r) = true) by (destruct r; [congruence|reflexivity]). rewrite T. unfold get_storage_conf. rewrite T. cbv zeta.
  rewrite (R3 _ D), (R3 _ Hk). reflexivity.
Qed.
Lemma key_storage_shared : forall s h, dget db (u "keyjar") = None -> section_for db (u "default") s h ->
  exists x, ctx_storage (config_of db iss) = Ok x /\ ctx_key_storage (config_of db iss) = Ok (Some x).
Proof.
  intros s h Hk (D & Hh & Hn). destruct conf_issued as (r & R1 & R2 & R3 & R4). { intros X. rewrite X in D. discriminate. }
  destruct (R4 (u "default") s ltac:(discriminate) D) as (s' & E1 & E2 & E3). destruct (factory_issued s s' h E2 E3 Hh Hn) as (c & F & G). exists (Handler (VStr h) c).
  unfold ctx_storage, ctx_key_storage. rewrite R1. cbn [bind]. assert (T : truthy (VDict r) = true) by (destruct r; [congruence|reflexivity]). rewrite T. unfold conf_get. rewrite E1, (truthy_dict _ _ _ E2).
  unfold init_storage. rewrite T. unfold get_storage_conf. rewrite T. cbv zeta. rewrite E1, (R3 _ Hk), (truthy_dict _ _ _ E2). 
  replace (ueqb (u "keyjar") (u "default")) with false by reflexivity. change (truthy VNone) with false. cbn [negb bind]. rewrite ?(truthy_dict _ _ _ E2). rewrite F. split; reflexivity.
Qed.
Lemma key_storage_empty : forall s h, dget db (u "keyjar") = Some (VDict []) -> section_for db (u "default") s h ->
  ctx_key_storage (config_of db iss) = Err EConfigurationError /\
  ctx_key_storage (config_plain db) = Ok (Some (Handler (VStr h) (ddel s (u "handler")))).
Proof.
  intros s h Hk (D & Hh & Hn). split.
  - destruct conf_issued as (r & R1 & R2 & R3 & R4). { intros X. rewrite X in D. discriminate. }
    destruct (R4 (u "keyjar") [] ltac:(discriminate) Hk) as (s' & E1 & E2 & E3).
    unfold ctx_key_storage. rewrite R1. cbn [bind]. assert (T : truthy (VDict r) = true) by (destruct r; [congruence|reflexivity]). rewrite T. unfold get_storage_conf. rewrite T. cbv zeta.
    rewrite E1, (truthy_dict _ _ _ E2). cbn [bind]. rewrite (truthy_dict _ _ _ E2). unfold storage_factory. rewrite (E3 (u "handler")) by discriminate. reflexivity.
  - unfold ctx_key_storage, ctx_db_conf. change (conf_get (config_plain db) (u "db_conf")) with (VDict db). change (truthy (conf_get (config_plain db) (u "issuer"))) with false.
    rewrite andb_false_r. cbn [bind]. rewrite (truthy_dict _ _ _ D). unfold get_storage_conf. rewrite (truthy_dict _ _ _ D). cbv zeta. rewrite Hk, D.
    replace (ueqb (u "keyjar") (u "default")) with false by reflexivity. cbn [truthy negb bind]. destruct s as [|x s]; [discriminate Hh|]. cbn [truthy]. unfold storage_factory. rewrite Hh. destruct h; [congruence|reflexivity].
Qed.
End Storages.
