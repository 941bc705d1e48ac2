(** Proofs of C160. *)
From Coq Require Import List NArith Bool String.
From Verif Require Import Base.Ustr Model.Cls Model.Value Model.Config Model.Tenants Model.KeyContext Spec.KeyContextSpec Proofs.ValueLemmas.
Import ListNotations.
Open Scope list_scope.
Open Scope N_scope.

Section P.
  Context {J K : Type} (X : jars J) (keys : J -> ustr -> list K).

  Lemma conf_same : forall c1 c2 k, dget c1 k = dget c2 k -> conf_get c1 k = conf_get c2 k.
  Proof. intros c1 c2 k H. unfold conf_get. rewrite H. reflexivity. Qed.
  Lemma db_conf_same : forall c1 c2, dget c1 (u "db_conf") = dget c2 (u "db_conf") -> dget c1 (u "issuer") = dget c2 (u "issuer") ->
    ctx_db_conf c1 = ctx_db_conf c2 /\ ctx_storage c1 = ctx_storage c2 /\ ctx_key_storage c1 = ctx_key_storage c2.
  Proof.
    intros c1 c2 H1 H2. assert (E : ctx_db_conf c1 = ctx_db_conf c2) by (unfold ctx_db_conf; rewrite (conf_same _ _ _ H1), (conf_same _ _ _ H2); reflexivity).
    split; [exact E|]. unfold ctx_storage, ctx_key_storage. rewrite E. split; reflexivity.
  Qed.

  (** a key jar that is given *)
  Lemma given_jar : forall X' kj c1 c2 e1 e2, dget c1 (u "db_conf") = dget c2 (u "db_conf") -> dget c1 (u "issuer") = dget c2 (u "issuer") ->
    ctx_init X (Some kj) c1 e1 = ctx_init X' (Some kj) c2 e2 /\ (forall x, ctx_init X (Some kj) c1 e1 = Ok x -> dget x (u "keyjar") = Some (AJar kj)).
  Proof.
    intros X' kj c1 c2 e1 e2 H1 H2. destruct (db_conf_same c1 c2 H1 H2) as (A & B & _). unfold ctx_init. cbn [ctx_keyjar]. rewrite A, B.
    split; [reflexivity|]. intros x H. destruct (ctx_db_conf c2); [|discriminate]. destruct (ctx_storage c2); [|discriminate]. cbn [bind] in H. injection H as <-. reflexivity.
  Qed.

  (** the sources of keys *)
  Lemma jar_source : forall config s,
    (forall ks, dget config (u "keys") = Some (VDict ks) ->
       exists args, first_jar X config s = j_init X args s /\ forall k, dget args k = if umem k [u "uri_path"; u "storage"] then None else dget ks k) /\
    (forall jwks, dget config (u "keys") = None -> dget config (u "jwks") = Some jwks -> first_jar X config s = j_import X (j_new X s) jwks []) /\
    (dget config (u "keys") = None -> dget config (u "jwks") = None -> first_jar X config s = Ok (j_new X s)).
  Proof.
    intros config s. split; [|split].
    - intros ks H. unfold first_jar. rewrite H. eexists. split; [reflexivity|]. intro k.
      rewrite (dget_filter (fun k => negb (ueqb k (u "uri_path")) && negb (ueqb k (u "storage")))).
      unfold umem. cbn [existsb]. destruct (ueqb k (u "uri_path")), (ueqb k (u "storage")); reflexivity.
    - intros jwks H1 H2. unfold first_jar. rewrite H1, H2. reflexivity.
    - intros H1 H2. unfold first_jar. rewrite H1, H2. reflexivity.
  Qed.

  (** a source of another type *)
  Lemma jar_no_dictionary : forall config s v, dget config (u "keys") = Some v -> (forall d, v <> VDict d) -> first_jar X config s = Err EAttributeError.
  Proof. intros config s v H N. unfold first_jar. rewrite H. destruct v; try reflexivity. destruct (N d eq_refl). Qed.

  (** the parameters for HTTP clients *)
  Lemma without_httpc : forall config e, let c' := ddel config (u "httpc_params") in
    (forall p, dget config (u "httpc_params") = Some p -> truthy p = true ->
       ctx_keyjar X None config e = (do kj <- ctx_keyjar X None c' e ; Ok (j_httpc X kj p))) /\
    ((forall p, dget config (u "httpc_params") = Some p -> truthy p = false) -> ctx_keyjar X None config e = ctx_keyjar X None c' e).
  Proof.
    intros config e c'.
    assert (D : forall k, ueqb k (u "httpc_params") = false -> dget c' k = dget config k).
    { intros k E. unfold c'. rewrite dget_ddel, E. reflexivity. }
    assert (S : ctx_key_storage c' = ctx_key_storage config) by (apply db_conf_same; apply D; reflexivity).
    assert (F : forall s, first_jar X c' s = first_jar X config s) by (intro s; unfold first_jar; rewrite !D by reflexivity; reflexivity).
    assert (N : conf_get c' (u "httpc_params") = VNone) by (unfold conf_get, c'; rewrite dget_ddel, ueqb_refl; reflexivity).
    unfold ctx_keyjar. rewrite S. cbv zeta. rewrite N. change (truthy VNone) with false. split.
    - intros p H T. assert (P : conf_get config (u "httpc_params") = p) by (unfold conf_get; rewrite H; reflexivity). rewrite P, T.
      destruct (ctx_key_storage config) as [s|]; [|reflexivity]. cbn [bind]. rewrite F. destruct (first_jar X config s) as [j|]; [|reflexivity]. cbn [bind].
      destruct (if j_has X j [] && truthy (VStr e) then do t <- j_export X j [] ; j_import_json X j t e else Ok j); reflexivity.
    - intro H. assert (P : truthy (conf_get config (u "httpc_params")) = false)
        by (unfold conf_get; destruct (dget config (u "httpc_params")) as [p|]; [apply H; reflexivity|reflexivity]). rewrite P.
      destruct (ctx_key_storage config) as [s|]; [|reflexivity]. cbn [bind]. rewrite F. reflexivity.
  Qed.

  (** the keys under the own name *)
  Hypothesis L : holds X keys.
  Lemma own_name : forall config e kj s j0, ctx_keyjar X None config e = Ok kj -> ctx_key_storage config = Ok s -> first_jar X config s = Ok j0 ->
    forall o, keys kj o = if ueqb o e && negb (ueqb e []) then keys j0 e ++ keys j0 [] else keys j0 o.
  Proof.
    intros config e kj s j0 H S F o. unfold ctx_keyjar in H. rewrite S in H. cbn [bind] in H. rewrite F in H. cbn [bind] in H.
    assert (T : forall j, keys (if truthy (conf_get config (u "httpc_params")) then j_httpc X j (conf_get config (u "httpc_params")) else j) o = keys j o).
    { intro j. destruct (truthy (conf_get config (u "httpc_params"))); [apply (h_httpc _ _ L)|reflexivity]. }
    destruct (j_has X j0 [] && truthy (VStr e)) eqn:E.
    - apply andb_true_iff in E. destruct E as [E1 E2]. destruct (j_export X j0 []) as [t|] eqn:E3; [|discriminate]. cbn [bind] in H.
      destruct (j_import_json X j0 t e) as [j1|] eqn:E4; [|discriminate]. cbn [bind] in H. injection H as <-. rewrite T, (h_move _ _ L j0 [] t e j1 E3 E4 o).
      replace (ueqb e []) with false by (destruct e; [discriminate|reflexivity]). rewrite andb_true_r. reflexivity.
    - cbn [bind] in H. injection H as <-. rewrite T. destruct (ueqb o e && negb (ueqb e [])) eqn:E5; [|reflexivity].
      apply andb_true_iff in E5. destruct E5 as [E5 E6]. apply ueqb_eq in E5. subst o.
      assert (E7 : keys j0 [] = []).
      { destruct (keys j0 []) as [|k ks] eqn:Q; [reflexivity|]. exfalso. assert (W : j_has X j0 [] = true) by (apply (h_has _ _ L); rewrite Q; discriminate).
        rewrite W in E. destruct e; [rewrite ueqb_refl in E6; discriminate|discriminate]. }
      rewrite E7, app_nil_r. reflexivity.
  Qed.
  Lemma made : forall config e s j0, moves X -> ctx_key_storage config = Ok s -> first_jar X config s = Ok j0 -> exists kj, ctx_keyjar X None config e = Ok kj.
  Proof.
    intros config e s j0 M S F. unfold ctx_keyjar. rewrite S. cbn [bind]. rewrite F. cbn [bind].
    destruct (j_has X j0 [] && truthy (VStr e)); [|eexists; reflexivity]. destruct (M j0 [] e) as (t & j' & E1 & E2). rewrite E1. cbn [bind]. rewrite E2. eexists. reflexivity.
  Qed.
End P.

(** ** boxes *)
Lemma boxes_names : forall J (x : dict (attr (J := J))) boxes c k, ~ In (VStr k) (map snd boxes) -> dget (fst (add_boxes x boxes c)) k = dget x k.
Proof.
  intros J x boxes c k. revert x. induction boxes as [|[key a] r IH]; intros x H; [reflexivity|]. cbn [add_boxes].
  destruct (init_storage c key); [|reflexivity]. destruct a; try reflexivity. rewrite IH by (intro I; apply H; right; exact I).
  apply dget_dset_other. intros ->. apply H. left. reflexivity.
Qed.
Lemma boxes_set : forall J boxes c (x : dict (attr (J := J))), NoDup (map snd boxes) ->
  (forall x', add_boxes x boxes c = (x', Ok tt) -> forall key a, In (key, a) boxes -> exists n s, a = VStr n /\ init_storage c key = Ok s /\ dget x' n = Some (AStorage s)) /\
  ((forall key a, In (key, a) boxes -> exists n s, a = VStr n /\ init_storage c key = Ok s) -> exists x', add_boxes x boxes c = (x', Ok tt)).
Proof.
  intros J boxes c. induction boxes as [|[k0 a0] r IH]; intros x N; [split; [intros x' _ key a []|intros _; eexists; reflexivity]|].
  cbn [map snd] in N. inversion N as [|? ? N1 N2]; subst. cbn [add_boxes]. split.
  - intros x' H key a I. destruct (init_storage c k0) as [s|] eqn:E; [|discriminate]. destruct a0 as [| | | |n| | |]; try discriminate.
    destruct I as [I|I].
    + injection I as <- <-. exists n, s. split; [reflexivity|]. split; [exact E|].
      pose proof (boxes_names J (dset x n (AStorage s)) r c n N1) as B. rewrite H in B. cbn [fst] in B. rewrite B. apply dget_dset_same.
    + apply (proj1 (IH (dset x n (AStorage s)) N2) x' H key a I).
  - intro H. destruct (H k0 a0 (or_introl eq_refl)) as (n & s & -> & E). rewrite E. apply (proj2 (IH (dset x n (AStorage s)) N2)).
    intros key a I. apply (H key a (or_intror I)).
Qed.
