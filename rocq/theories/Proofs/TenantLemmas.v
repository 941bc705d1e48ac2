(** Contexts of several issuers do not see each other's data. *)
From Coq Require Import List NArith ZArith Bool String Lia Arith.
From Verif Require Import Base.Ustr Base.UstrLemmas Base.Utf8 Base.Percent Base.PercentLemmas Model.Cls Model.Value Model.Converter Model.Config
  Spec.CodecSpec Spec.StorageSpec Spec.TenantSpec Proofs.ValueLemmas Proofs.CodecLemmas Proofs.StorageLemmas Proofs.StorageHistory Proofs.StorageOther
  Proofs.StorageMore Model.Tenants Model.FileStore.
Import ListNotations.
Open Scope list_scope.
Open Scope N_scope.

(** ** what is done in another directory *)
Lemma inside_other : forall D D' p, D <> D' -> inside D p -> ~ inside D' p.
Proof.
  intros D D' p H (n & -> & Hn) (m & E & Hm). apply H. clear H.
  assert (G : forall (a b x y : ustr), ~ In 47 x -> ~ In 47 y -> a ++ 47 :: x = b ++ 47 :: y -> a = b).
  { clear. intros a b x y Hx Hy. revert b. induction a as [|c a IH]; intros [|e b] E; cbn [app] in E; [reflexivity| | |].
    - injection E as <- E. exfalso. apply Hx. rewrite E. apply in_or_app. right. left. reflexivity.
    - injection E as -> E. exfalso. apply Hy. rewrite <- E. apply in_or_app. right. left. reflexivity.
    - injection E as <- E. f_equal. apply IH. exact E. }
  exact (G _ _ _ _ Hn Hm E).
Qed.
Lemma inv_elsewhere : forall C D D' W W' P G, D <> D' -> inv never C D W P G -> outside D' W W' -> w_clock W <= w_clock W' ->
  NoDup (map fst (w_files W')) -> inv never C D W' P G.
Proof.
  intros C D D' W W' P G HD [H1 H2 H2' H3 H4 H5 H6] (O1 & O2 & O3) Hc Hn.
  assert (F : forall f, has_char 47 f = false -> dget (w_files W') (child D f) = dget (w_files W) (child D f)).
  { intros f Hf. apply O3. apply (inside_other D); [exact HD|]. apply inside_child. exact Hf. }
  constructor.
  - exact (ready_same _ _ _ _ H1 O1 O2).
  - exact Hn.
  - exact H2'.
  - intros p f m Hp. destruct (H3 p f m Hp) as [A _]. split; [lia|intros []].
  - intros k f Hk Hf. specialize (H4 k f Hk Hf). unfold key_ok in *. rewrite (F f (qp_noslash k f Hf)).
    destruct (G k) as [[w v]|]; [|exact H4]. destruct H4 as (t & m & x & A1 & A2 & A3 & A4 & A5 & A6). exists t, m, x.
    repeat (split; [assumption|]). split; [lia|exact A6].
  - intros f Hf Hl He. rewrite (F f Hf) in He. auto.
  - exact H6.
Qed.
Lemma legal_tame : forall C o, legal C o -> tame o.
Proof.
  intros C o H. destruct o; cbn [legal tame] in *; auto. destruct H as [_ H]. intro Hin. unfold own_name in H. rewrite Forall_forall in H.
  specialize (H _ Hin). unfold own_char in H. lia.
Qed.

(** ** the clock *)
Lemma clock_lock : forall W s W', lock W s = Ok W' -> w_clock W' = w_clock W.
Proof. intros W s W' H. unfold lock, open_w in H. destruct (locate W _); [injection H as <-; reflexivity|discriminate]. Qed.
Lemma clock_set : forall c W S k v, w_clock (fst (fst (set c W S k v))) = w_clock W.
Proof.
  intros c W S k v. unfold set. destruct (qpkey_serialize k) as [f|e]; [|reflexivity]. unfold set_open.
  destruct (lock W _) as [W1|e] eqn:E1; [|reflexivity]. apply clock_lock in E1. unfold open_w.
  destruct (locate W1 _) as [p|]; [|exact E1]. unfold set_write. destruct (c_ser c v) as [t|e]; [|exact E1]. unfold write.
  destruct (utf8_encode t); [|exact E1]. destruct (locate _ _); [|exact E1]. destruct (set_stat _ _ _ _). exact E1.
Qed.
Lemma clock_del : forall c W S k, w_clock (fst (fst (del c W S k))) = w_clock W.
Proof.
  intros c W S k. unfold del. destruct (isfile W _); [|reflexivity]. destruct (lock W _) as [W1|e] eqn:E1; [|reflexivity].
  apply clock_lock in E1. unfold unlink. cbn [fst]. destruct (locate W1 _); exact E1.
Qed.
Lemma clock_read : forall c W f, w_clock (fst (read_info c W f)) = w_clock W.
Proof.
  intros c W f. unfold read_info. destruct (isfile W _); [|reflexivity]. destruct (lock W _) as [W1|e] eqn:E1; [|reflexivity].
  apply clock_lock in E1. destruct (file_at W1 _) as [[t m]|]; exact E1.
Qed.
Lemma clock_getitem : forall c W S k, w_clock (fst (fst (getitem c W S k))) = w_clock W.
Proof.
  intros c W S k. unfold getitem. destruct (qpkey_serialize k) as [f|e]; [|reflexivity].
  destruct (is_changed c W S f) as [S1 [[|]|e]]; [|reflexivity|reflexivity].
  pose proof (clock_read c W f) as R. destruct (read_info c W f) as [W1 [v|e]]; exact R.
Qed.
Lemma clock_synch_files : forall c l W S, w_clock (fst (fst (synch_files c W S l))) = w_clock W.
Proof.
  intros c. induction l as [|f l IH]; intros W S; cbn [synch_files]; [reflexivity|].
  assert (G : w_clock (fst (fst (synch_file c W S f))) = w_clock W).
  { unfold synch_file. destruct (file_at W _) as [[t m]|]; [|reflexivity]. destruct (endswith _ f); [reflexivity|].
    pose proof (clock_read c W f) as R. destruct (dhas _ f).
    - destruct (is_changed c W S f) as [S1 [[|]|e]]; [|reflexivity|reflexivity]. destruct (read_info c W f) as [W1 [v|e]]; exact R.
    - destruct (read_info c W f) as [W1 [v|e]]; exact R. }
  destruct (synch_file c W S f) as [[W1 S1] [x|e]]; [|exact G]. rewrite IH. exact G.
Qed.
Lemma clock_del_all : forall c l W S, w_clock (fst (fst (del_all c W S l))) = w_clock W.
Proof.
  intros c. induction l as [|f l IH]; intros W S; cbn [del_all]; [reflexivity|].
  pose proof (clock_del c W S f) as G. destruct (del c W S f) as [[W1 S1] [x|e]]; [|exact G]. rewrite IH. exact G.
Qed.
Lemma clock_update : forall c l W S, w_clock (fst (fst (update c W S l))) = w_clock W.
Proof.
  intros c. induction l as [|[k v] l IH]; intros W S; cbn [update]; [reflexivity|].
  pose proof (clock_set c W S k v) as G. destruct (set c W S k v) as [[W1 S1] [x|e]]; [|exact G]. rewrite IH. exact G.
Qed.
Lemma clock_items : forall c W S, w_clock (fst (fst (items c W S))) = w_clock W.
Proof.
  intros c W S. unfold items, synch. destruct (listdir W _) as [l|e]; [|reflexivity]. pose proof (clock_synch_files c l W S) as G.
  destruct (synch_files c W S l) as [[W1 S1] [x|e]]; exact G.
Qed.
Lemma clock_grows : forall c W S o, w_clock W <= w_clock (fst (fst (exec c W S o))).
Proof.
  intros c W S o. assert (T : w_clock W <= w_clock (tick W)) by (cbn [tick w_clock]; lia).
  assert (X : w_clock (fst (fst (exec c W S o))) = w_clock (tick W)); [|lia].
  destruct o as [k v|k|k|k| | | | |d]; cbn [exec].
  - pose proof (clock_set c (tick W) S k v) as G. destruct (set _ _ _ _ _) as [[W1 S1] r]. exact G.
  - pose proof (clock_getitem c (tick W) S k) as G. destruct (getitem _ _ _ _) as [[W1 S1] r]. exact G.
  - pose proof (clock_del c (tick W) S k) as G. destruct (del _ _ _ _) as [[W1 S1] r]. exact G.
  - reflexivity.
  - pose proof (clock_items c (tick W) S) as G. unfold keys. destruct (items _ _ _) as [[W1 S1] [x|e]]; exact G.
  - pose proof (clock_items c (tick W) S) as G. destruct (items _ _ _) as [[W1 S1] r]. exact G.
  - reflexivity.
  - unfold clear. destruct (listdir _ _) as [l|e]; [|reflexivity]. pose proof (clock_del_all c l (tick W) S) as G.
    destruct (del_all _ _ _ _) as [[W1 S1] r]. exact G.
  - pose proof (clock_update c d (tick W) S) as G. destruct (update _ _ _ _) as [[W1 S1] r]. exact G.
Qed.

(** ** histories *)
Section Tenants.
  Variables (T : nat -> Prop) (C : nat -> conf) (D : nat -> ustr).
  Hypothesis apart_dirs : forall i j, T i -> T j -> i <> j -> D i <> D j.
  Let fresh_procs : procs := fun _ => s_new.
  (** what holds of each *)
  Definition tinv (W : world) (P : procs) (h : list (nat * op)) : Prop := forall i, T i ->
    inv never (C i) (D i) W (pset fresh_procs i (P i)) (fun k => latest k (part i h)) /\
    own (fun _ => True) (P i) (fun k => latest k (part i h)).

  Lemma part_snoc : forall i h j o, part i (h ++ [(j, o)]) = part i h ++ (if Nat.eqb j i then [(j, o)] else []).
  Proof. intros. unfold part. rewrite filter_app. cbn [filter fst]. destruct (Nat.eqb j i); reflexivity. Qed.

  Lemma tstep : forall W P h i o, tinv W P h -> T i -> legal (C i) o ->
    exists W' S' r, exec (C i) W (P i) o = (W', S', r) /\ tinv W' (pset P i S') (h ++ [(i, o)]) /\
      answers (fun k => latest k (part i h)) o r.
  Proof.
    intros W P h i o H Hi Ho. destruct (H i Hi) as [I O].
    destruct (exec_step (fun _ => True) (C i) (D i) W (pset fresh_procs i (P i)) _ i o I Ho) as (W' & S' & r & E & I' & O' & A & _).
    rewrite pset_same in E, O', A. exists W', S', r. split; [exact E|]. split.
    - intros j Hj. rewrite part_snoc. destruct (Nat.eqb_spec i j) as [->|Hn].
      + rewrite pset_same. split.
        * apply (inv_ext never never (C j) (D j) W' (pset (pset fresh_procs j (P j)) j S') _ (gop (fun k => latest k (part j h)) (j, o))); auto.
          -- intro p. unfold pset. destruct (Nat.eqb p j); reflexivity.
          -- intro k. unfold gop, latest. rewrite fold_left_app. reflexivity.
        * intros f v Hf. destruct (O' O f v Hf) as (k & K1 & K2 & K3). exists k. split; [exact K1|]. split; [exact K2|]. intro X.
          unfold latest. rewrite fold_left_app. exact (K3 X).
      + rewrite app_nil_r, pset_other by auto. destruct (H j Hj) as [J1 J2]. split; [|exact J2].
        pose proof (outside_exec (C i) (D i) W (P i) o (proj1 (i_ready _ _ _ _ _ _ I)) (legal_tame _ _ Ho)) as Ou.
        pose proof (clock_grows (C i) W (P i) o) as Cl. rewrite E in Ou, Cl. cbn [fst] in Ou, Cl.
        apply (inv_elsewhere _ _ (D i) W W' _ _ (fun e => apart_dirs j i Hj Hi (fun x => Hn (eq_sym x)) e) J1 Ou Cl (i_nodup _ _ _ _ _ _ I')).
    - assert (A' : answers_on (fun _ => True) (fun k => latest k (part i h)) o r).
      { apply A; [exact O|]. intros k w v X G. apply (latest_writer (fun _ => True) (part i h) i k None w v); [|exact X|discriminate|exact G].
        apply Forall_forall. intros e He. apply filter_In in He. destruct He as [_ He]. apply Nat.eqb_eq in He. auto. }
      destruct o as [k0 v0|k0|k0|k0| | | | |l]; cbn [answers_on answers] in *; auto.
      + destruct A' as (l & A1 & A2 & A3). exists l. repeat split; auto; apply A3; auto.
      + destruct A' as (l & A1 & A2 & A3). exists l. repeat split; auto; apply A3; auto.
  Qed.
  Lemma tsteps : forall l W P h, tinv W P h -> Forall (fun e => T (fst e) /\ legal (C (fst e)) (snd e)) l ->
    exists W' P' rs, trun C W P l = (W', P', rs) /\ tinv W' P' (h ++ l).
  Proof.
    induction l as [|[i o] l IH]; intros W P h H Hl; cbn [trun].
    - eexists _, _, _. split; [reflexivity|]. rewrite app_nil_r. exact H.
    - apply Forall_cons_iff in Hl. destruct Hl as [[Hi Ho] Hl]. cbn [fst snd] in *.
      destruct (tstep W P h i o H Hi Ho) as (W1 & S1 & r & -> & H1 & _).
      destruct (IH W1 (pset P i S1) (h ++ [(i, o)]) H1 Hl) as (W2 & P2 & rs & -> & H2).
      eexists _, _, _. split; [reflexivity|]. rewrite <- app_assoc in H2. exact H2.
  Qed.
  Theorem tenants : forall W i h o W' P' rs W'' S'' r,
    (forall j, T j -> placed (C j) W (D j) /\ flat W (D j) /\ no_files W (D j)) -> NoDup (map fst (w_files W)) ->
    Forall (fun e => T (fst e) /\ legal (C (fst e)) (snd e)) h -> T i -> legal (C i) o ->
    trun C W (fun _ => s_new) h = (W', P', rs) -> exec (C i) W' (P' i) o = (W'', S'', r) ->
    answers (fun k => latest k (part i h)) o r.
  Proof.
    intros W i h o W' P' rs W'' S'' r HW HN Hh Hi Ho Hr He.
    assert (H0 : tinv W (fun _ => s_new) []).
    { intros j Hj. destruct (HW j Hj) as (A1 & A2 & A3). split.
      - apply (inv_ext never never (C j) (D j) W (fun _ => s_new) _ (fun _ => None)); auto.
        + apply inv_start; assumption.
        + intro p. unfold pset, fresh_procs. destruct (Nat.eqb p j); reflexivity.
      - intros f v X. discriminate. }
    destruct (tsteps h W _ [] H0 Hh) as (W1 & P1 & rs1 & E1 & H1). rewrite E1 in Hr. injection Hr as -> -> ->. cbn [app] in H1.
    destruct (tstep W' P' h i o H1 Hi Ho) as (W2 & S2 & r2 & E2 & _ & A). rewrite E2 in He. injection He as -> -> ->. exact A.
  Qed.
End Tenants.

(** ** configurations *)
Lemma format_char : forall c r i, c <> 123 -> c <> 125 -> format_issuer (c :: r) i = do x <- format_issuer r i ; Ok (c :: x).
Proof.
  intros c r i H1 H2. destruct c as [|p]; [reflexivity|].
  do 7 (destruct p as [p|p|]; try reflexivity; try congruence).
Qed.
Lemma format_prefix : forall a t i, ~ In 123 a -> ~ In 125 a -> format_issuer (a ++ t) i = do x <- format_issuer t i ; Ok (a ++ x).
Proof.
  induction a as [|c a IH]; intros t i H1 H2; cbn [app]; [destruct (format_issuer t i); reflexivity|].
  cbn [In] in H1, H2. rewrite format_char by tauto. rewrite IH by tauto. destruct (format_issuer t i); reflexivity.
Qed.
Lemma format_template : forall base i, ~ In 123 base -> ~ In 125 base ->
  format_issuer (base ++ u "/{issuer}") i = Ok (base ++ u "/" ++ i).
Proof.
  intros base i H1 H2. rewrite format_prefix by assumption. change (u "/{issuer}") with (47 :: u "{issuer}").
  rewrite format_char by discriminate. change (format_issuer (u "{issuer}") i) with (Ok (A := ustr) (i ++ [])). cbn [bind]. rewrite app_nil_r. reflexivity.
Qed.
Lemma issuer_files : forall ser deser db base iss q, per_issuer db base -> iss <> [] -> quote_plus iss = Some q ->
  ctx_files ser deser (config_of db iss) = Ok (mkC (base ++ u "/" ++ q) ser deser).
Proof.
  intros ser deser db base iss q [Hn Hs (s & h & D1 & D2 & D3 & D4) (B1 & B2 & B3)] Hi Hq.
  assert (Hdb : truthy (VDict db) = true) by (destruct db; [discriminate|reflexivity]).
  assert (Hti : truthy (VStr iss) = true) by (destruct iss; [congruence|reflexivity]).
  destruct (issuer_conf db iss q Hq) as (r & R1 & R2 & R3).
  { apply Forall_forall. intros [k v] H. cbn [fst snd]. exact (Hs k v H). }
  unfold ctx_files, ctx_storage, ctx_db_conf.
  change (conf_get (config_of db iss) (u "db_conf")) with (VDict db). change (conf_get (config_of db iss) (u "issuer")) with (VStr iss).
  rewrite Hdb, Hti. cbn [andb]. rewrite R1. cbn [bind].
  assert (Hr : exists d', dget r (u "default") = Some (VDict d') /\ dget d' (u "issuer") = Some (VStr q) /\
     (forall x, x <> u "issuer" -> dget d' x = dget s x)).
  { destruct (dget r (u "default")) as [v|] eqn:E.
    - apply dget_In in E. destruct (R3 _ _ E) as (v0 & A & _ & B). destruct B as (d0 & d' & -> & -> & B1' & B2'); [discriminate|].
      apply (In_dget _ _ _ Hn) in A. rewrite A in D1. injection D1 as ->. exists d'. split; [reflexivity|]. split; [exact B1'|exact B2'].
    - exfalso. apply dget_None in E. apply E. rewrite R2. apply dget_Some_iff. eauto. }
  destruct Hr as (d' & E1 & E2 & E3).
  assert (Hrt : truthy (VDict r) = true) by (destruct r; [discriminate|reflexivity]).
  assert (Hdt : truthy (VDict d') = true) by (destruct d'; [discriminate|reflexivity]).
  rewrite Hrt. unfold conf_get at 1. rewrite E1, Hdt. unfold init_storage. rewrite Hrt. unfold get_storage_conf. rewrite Hrt, E1, Hdt. cbn [bind]. rewrite Hdt.
  unfold storage_factory. rewrite (E3 (u "handler")), D2 by discriminate.
  replace (truthy (VStr h)) with true by (destruct h; [congruence|reflexivity]). cbn [bind].
  unfold fs_dir. rewrite !dget_ddel. replace (ueqb (u "fdir") (u "handler")) with false by reflexivity.
  rewrite (E3 (u "fdir")), D4 by discriminate.
  assert (Hsub : substr (u "{issuer}") (base ++ u "/{issuer}") = true).
  { apply substr_iff. exists (base ++ u "/"), []. rewrite <- app_assoc. reflexivity. }
  rewrite Hsub. unfold conf_get. rewrite dget_ddel. replace (ueqb (u "issuer") (u "handler")) with false by reflexivity. rewrite E2.
  replace (truthy (VStr q)) with true.
  - rewrite format_template by assumption. reflexivity.
  - destruct q; [|reflexivity]. apply unquote_quote_plus in Hq. cbn in Hq. congruence.
Qed.
Lemma placed_issuer : forall W base B q ser deser, base <> [] -> dir_at W base = Some B -> has_char 47 q = false -> dot q = false -> dotdot q = false ->
  In (B ++ u "/" ++ q) (w_dirs W) -> placed (mkC (base ++ u "/" ++ q) ser deser) W (B ++ u "/" ++ q).
Proof.
  intros W base B q ser deser Hb HB H1 H2 H3 Hin. split; [cbn [c_fdir]; destruct base; discriminate|]. cbn [c_fdir].
  unfold dir_at in *. change (base ++ u "/" ++ q) with (base ++ 47 :: q). rewrite split_on_snoc, walk_app, (split_on_none 47 q H1).
  replace (start W (base ++ 47 :: q)) with (start W base).
  - rewrite HB. cbn [walk]. rewrite H2, H3. change (child B q) with (B ++ u "/" ++ q). apply umem_In in Hin. rewrite Hin. reflexivity.
  - unfold start. rewrite !startswith_slash. destruct base; [congruence|reflexivity].
Qed.
Lemma issuer_dir : forall iss q, issuer_name iss -> quote_plus iss = Some q -> has_char 47 q = false /\ dot q = false /\ dotdot q = false.
Proof.
  intros iss q (H1 & H2 & H3 & H4) Hq.
  assert (Hf : qpkey_serialize iss = Ok q) by (unfold qpkey_serialize; rewrite Hq; reflexivity).
  split; [exact (qp_noslash iss q Hf)|]. apply unquote_quote_plus in Hq. unfold dot, dotdot. split.
  - apply orb_false_iff. split; apply not_true_is_false; intro E; apply ueqb_eq in E; subst q; [apply H2|apply H3]; rewrite <- Hq; reflexivity.
  - apply not_true_is_false. intro E. apply ueqb_eq in E. subst q. apply H4. rewrite <- Hq. reflexivity.
Qed.

Theorem issuers : forall ser deser db base B (iss : nat -> ustr) (T : nat -> Prop) W,
  per_issuer db base -> (forall i, T i -> issuer_name (iss i)) -> (forall i j, T i -> T j -> i <> j -> iss i <> iss j) ->
  dir_at W base = Some B -> NoDup (map fst (w_files W)) ->
  (forall i q, T i -> quote_plus (iss i) = Some q ->
     In (B ++ u "/" ++ q) (w_dirs W) /\ flat W (B ++ u "/" ++ q) /\ no_files W (B ++ u "/" ++ q)) ->
  exists C : nat -> conf, (forall i, T i -> ctx_files ser deser (config_of db (iss i)) = Ok (C i)) /\
    forall i h o W' P' rs W'' S'' r,
    Forall (fun e => T (fst e) /\ legal (C (fst e)) (snd e)) h -> T i -> legal (C i) o ->
    trun C W (fun _ => s_new) h = (W', P', rs) -> exec (C i) W' (P' i) o = (W'', S'', r) ->
    answers (fun k => latest k (part i h)) o r.
Proof.
  intros ser deser db base B iss T W Hp Hi Hd HB Hn HW.
  assert (Hq : forall i, T i -> exists q, quote_plus (iss i) = Some q).
  { intros i Ti. destruct (Hi i Ti) as [He _]. apply encodable_iff in He. apply quote_plus_scalars in He. exact He. }
  set (q i := match quote_plus (iss i) with Some q => q | None => [] end).
  assert (Eq : forall i, T i -> quote_plus (iss i) = Some (q i)).
  { intros i Ti. unfold q. destruct (Hq i Ti) as [x ->]. reflexivity. }
  exists (fun i => mkC (base ++ u "/" ++ q i) ser deser). split.
  - intros i Ti. apply issuer_files; [exact Hp|apply (Hi i Ti)|exact (Eq i Ti)].
  - intros i h o W' P' rs W'' S'' r Hh Ti Ho Hr He.
    refine (tenants T (fun i => mkC (base ++ u "/" ++ q i) ser deser) (fun i => B ++ u "/" ++ q i) _ W i h o W' P' rs W'' S'' r _ Hn Hh Ti Ho Hr He).
    + intros a b Ta Tb Hab E. apply app_inv_head in E. apply app_inv_head in E. apply (Hd a b Ta Tb Hab).
      pose proof (Eq a Ta) as A1. pose proof (Eq b Tb) as A2. rewrite E in A1. apply unquote_quote_plus in A1, A2. congruence.
    + intros j Tj. destruct (HW j (q j) Tj (Eq j Tj)) as (A1 & A2 & A3). split; [|split; [exact A2|exact A3]].
      destruct (issuer_dir _ _ (Hi j Tj) (Eq j Tj)) as (B1 & B2 & B3). apply placed_issuer; try assumption. apply (pi_base _ _ Hp).
Qed.
