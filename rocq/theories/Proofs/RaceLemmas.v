(** Processes that set one key at the same time. *)
From Coq Require Import List NArith ZArith Bool String Lia Arith.
From Verif Require Import Base.Ustr Base.UstrLemmas Base.Percent
  Model.Value Model.Converter Model.FileStore Model.Labeled Spec.CodecSpec Spec.StorageSpec
  Proofs.ValueLemmas Proofs.CodecLemmas Proofs.StorageLemmas Proofs.StorageHistory Proofs.StorageOther.
Import ListNotations.
Open Scope list_scope.
Open Scope N_scope.

Section Race.
  Variables (C : conf) (D f : ustr) (vals : nat -> value) (texts : nat -> ustr).
  Hypothesis Hu : usable f.
  Hypothesis Hl : lockname f = false.
  Hypothesis Hs : forall i, c_ser C (vals i) = Ok (texts i) /\ encodable (texts i).

  Definition file (R : race) := dget (w_files (r_W R)) (child D f).
  (** the file is the work of [w] *)
  Definition by_writer (R : race) (w : nat) : Prop :=
    exists m, file R = Some (texts w, m) /\ (2 <= r_pc R w)%nat /\ (r_pc R w = 4%nat -> dget (s_fmtime (r_P R w)) f = Some m).
  Record rinv (R : race) : Prop := {
    ri_ready : ready C (r_W R) D;
    ri_lock : forall j, r_pc R j = 1%nat <-> r_lock R = Some j;
    ri_file : forall j, (1 <= r_pc R j)%nat -> file R <> None;
    ri_clock : forall t m, file R = Some (t, m) -> m <= w_clock (r_W R);
    ri_store : forall j, (3 <= r_pc R j)%nat -> dget (s_storage (r_P R j)) f = Some (vals j);
    ri_time : forall j, r_pc R j = 4%nat -> exists m t m', dget (s_fmtime (r_P R j)) f = Some m /\ file R = Some (t, m') /\ m <= m';
    ri_writer : r_lock R = None -> (exists j, (2 <= r_pc R j)%nat) -> exists w, by_writer R w }.

  Lemma nset_same : forall {A} (F : nat -> A) i x, nset F i x i = x.
  Proof. intros. unfold nset. rewrite Nat.eqb_refl. reflexivity. Qed.
  Lemma nset_other : forall {A} (F : nat -> A) i x j, j <> i -> nset F i x j = F j.
  Proof. intros. unfold nset. apply Nat.eqb_neq in H. rewrite H. reflexivity. Qed.
  Lemma pset_nset : forall P i S, pset P i S = nset P i S.
  Proof. reflexivity. Qed.
  Ltac case_j j i := destruct (Nat.eq_dec j i) as [->|?Hj]; [rewrite ?nset_same in *|rewrite ?(nset_other _ i _ j) in * by assumption].

  Lemma step_rinv : forall R i, rinv R -> rinv (race_step C f vals R i).
  Proof.
    intros R i [A1 A2 A3 A4 A5 A6 A7]. unfold race_step.
    pose proof (ready_tick _ _ _ A1) as A1'.
    assert (Idle : rinv (mkR (tick (r_W R)) (r_P R) (r_pc R) (r_lock R))).
    { constructor; cbn [r_W r_P r_pc r_lock]; auto. intros t m E. specialize (A4 t m E). cbn [tick w_clock]. lia. }
    destruct (r_pc R i) as [|[|[|[|n]]]] eqn:Ei; [| | | |exact Idle].
    - destruct (r_lock R) as [j|] eqn:El; [exact Idle|].
      rewrite (set_open_ready C _ D f A1' Hu). cbn [fst].
      assert (F : forall P pc lk, file (mkR (written D (tick (r_W R)) f []) P pc lk) = Some ([], w_clock (tick (r_W R)))).
      { intros. unfold file. cbn [r_W]. rewrite (files_written D _ f [] f Hl), ueqb_refl. reflexivity. }
      constructor; cbn [r_W r_P r_pc r_lock].
      + apply ready_put, ready_put. exact A1'.
      + intro j. case_j j i; [tauto|]. rewrite A2. split; [discriminate|congruence].
      + intros j _. rewrite F. discriminate.
      + intros t m. rewrite F. intro E. injection E as <- <-. cbn. lia.
      + intros j Hj'. case_j j i; [lia|]. auto.
      + intros j Hj'. case_j j i; [lia|]. destruct (A6 j Hj') as (m & t & m' & E1 & E2 & E3).
        exists m, [], (w_clock (tick (r_W R))). split; [exact E1|]. split; [apply F|]. specialize (A4 t m' E2). cbn [tick w_clock]. lia.
      + discriminate.
    - destruct (Hs i) as [H1 H2]. rewrite (set_write_ready C _ D f (vals i) (texts i) A1' Hu H1 H2). cbn [fst].
      assert (F : forall P pc lk, file (mkR (put (tick (r_W R)) (child D f) (texts i, w_clock (tick (r_W R)))) P pc lk) =
                           Some (texts i, w_clock (tick (r_W R)))).
      { intros. unfold file. cbn [r_W put w_files]. apply dget_dset_same. }
      pose proof (proj1 (A2 i) Ei) as El.
      constructor; cbn [r_W r_P r_pc r_lock].
      + apply ready_put. exact A1'.
      + intro j. case_j j i; [split; [lia|discriminate]|]. rewrite A2, El. split; [congruence|discriminate].
      + intros j _. rewrite F. discriminate.
      + intros t m. rewrite F. intro E. injection E as <- <-. cbn. lia.
      + intros j Hj'. case_j j i; [lia|]. auto.
      + intros j Hj'. case_j j i; [lia|]. destruct (A6 j Hj') as (m & t & m' & E1 & E2 & E3).
        exists m, (texts i), (w_clock (tick (r_W R))). split; [exact E1|]. split; [apply F|]. specialize (A4 t m' E2). cbn [tick w_clock]. lia.
      + intros _ _. exists i. eexists. split; [apply F|]. cbn [r_pc]. rewrite nset_same. split; [lia|lia].
    - constructor; cbn [r_W r_P r_pc r_lock].
      + exact A1'.
      + intro j. rewrite <- A2. case_j j i; [split; lia|tauto].
      + intros j Hj'. case_j j i; [apply (A3 i); lia|apply (A3 j Hj')].
      + intros t m E. specialize (A4 t m E). cbn [tick w_clock]. lia.
      + intros j Hj'. rewrite pset_nset. case_j j i; [cbn; apply dget_dset_same|auto].
      + intros j Hj'. rewrite pset_nset. case_j j i; [lia|]. exact (A6 j Hj').
      + intros El Hex. destruct (A7 El) as (w & m & E1 & E2 & E3); [exists i; lia|].
        exists w, m. split; [exact E1|]. cbn [r_pc r_P]. rewrite pset_nset. case_j w i; [lia|auto].
    - pose proof (A3 i ltac:(lia)) as Hf. unfold file in Hf. destruct (dget (w_files (r_W R)) (child D f)) as [[t0 m0]|] eqn:Ef; [|congruence].
      rewrite (set_stat_ready C (tick (r_W R)) D (r_P R i) f t0 m0 A1' Hu Ef). cbn [fst].
      constructor; cbn [r_W r_P r_pc r_lock].
      + exact A1'.
      + intro j. rewrite <- A2. case_j j i; [split; lia|tauto].
      + intros j Hj'. case_j j i; [apply (A3 i); lia|apply (A3 j Hj')].
      + intros t m E. specialize (A4 t m E). cbn [tick w_clock]. lia.
      + intros j Hj'. rewrite pset_nset. case_j j i; [cbn; apply A5; lia|auto].
      + intros j Hj'. rewrite pset_nset. case_j j i; [|exact (A6 j Hj')].
        exists m0, t0, m0. cbn [seen s_fmtime]. rewrite dget_dset_same. split; [reflexivity|]. split; [exact Ef|lia].
      + intros El Hex. destruct (A7 El) as (w & m & E1 & E2 & E3); [exists i; lia|].
        exists w, m. split; [exact E1|]. cbn [r_pc r_P]. rewrite pset_nset. case_j w i; [|auto].
        split; [lia|]. intros _. cbn [seen s_fmtime]. rewrite dget_dset_same. unfold file in E1. congruence.
  Qed.
  Lemma run_rinv : forall l R, rinv R -> rinv (race_run C f vals R l).
  Proof. induction l as [|i l IH]; intros R H; [exact H|]. apply IH, step_rinv, H. Qed.

  (** a process that is through is not touched any more, and the time does not go back *)
  Lemma step_done : forall R i j, r_pc R j = 4%nat -> r_pc (race_step C f vals R i) j = 4%nat /\ r_P (race_step C f vals R i) j = r_P R j.
  Proof.
    intros R i j H. unfold race_step.
    destruct (Nat.eq_dec j i) as [->|Hj]; [rewrite H; auto|].
    destruct (r_pc R i) as [|[|[|[|n]]]]; [destruct (r_lock R)| | | |]; cbn [r_pc r_P]; rewrite ?pset_nset, ?nset_other by exact Hj; auto.
  Qed.
  (** after [i] has written, the file is younger than [c] *)
  Definition younger (c : N) (i : nat) (R : race) : Prop :=
    c <= w_clock (r_W R) /\ ((2 <= r_pc R i)%nat -> exists t m, file R = Some (t, m) /\ c < m).
  Lemma step_younger : forall c i R j, rinv R -> younger c i R -> younger c i (race_step C f vals R j).
  Proof.
    intros c i R j [A1 A2 A3 A4 A5 A6 A7] [H1 H2]. pose proof (ready_tick _ _ _ A1) as A1'. unfold race_step, younger.
    assert (T : c <= w_clock (tick (r_W R))) by (cbn [tick w_clock]; lia).
    assert (T' : c < w_clock (tick (r_W R))) by (cbn [tick w_clock]; lia).
    destruct (r_pc R j) as [|[|[|[|n]]]] eqn:Ej; [destruct (r_lock R)| | | |].
    - cbn [r_W r_pc]. auto.
    - rewrite (set_open_ready C _ D f A1' Hu). cbn [fst r_W r_pc]. split; [exact T|]. intros _.
      eexists _, _. unfold file. cbn [r_W]. rewrite (files_written D _ f [] f Hl), ueqb_refl. split; [reflexivity|exact T'].
    - destruct (Hs j) as [S1 S2]. rewrite (set_write_ready C _ D f (vals j) (texts j) A1' Hu S1 S2). cbn [fst r_W r_pc].
      split; [exact T|]. intros _. eexists _, _. unfold file. cbn [r_W put w_files]. rewrite dget_dset_same. split; [reflexivity|exact T'].
    - cbn [r_W r_pc]. split; [exact T|]. intro Hp. apply H2. case_j i j; lia.
    - cbn [r_W r_pc]. split; [exact T|]. intro Hp. apply H2. case_j i j; lia.
    - cbn [r_W r_pc]. auto.
  Qed.
  Lemma run_younger : forall c i l R, rinv R -> younger c i R -> younger c i (race_run C f vals R l).
  Proof. induction l as [|j l IH]; intros R H Y; [exact Y|]. apply IH; [apply step_rinv|apply step_younger]; assumption. Qed.
  Lemma run_done : forall l R j, r_pc R j = 4%nat -> r_pc (race_run C f vals R l) j = 4%nat /\ r_P (race_run C f vals R l) j = r_P R j.
  Proof.
    induction l as [|i l IH]; intros R j H; [auto|]. destruct (step_done R i j H) as [H1 H2].
    destruct (IH _ j H1) as [H3 H4]. split; [exact H3|]. unfold race_run in *. cbn [fold_left]. congruence.
  Qed.
End Race.

Lemma get_after : forall C D f texts vals R k j t m, rinv C D f vals texts R -> usable f -> lockname f = false -> qpkey_serialize k = Ok f ->
  file D f R = Some (t, m) -> r_pc R j = 4%nat ->
  (dget (s_fmtime (r_P R j)) f = Some m /\ race_get C R j k = Ok (vals j)) \/
  (dget (s_fmtime (r_P R j)) f <> Some m /\ race_get C R j k = content C t).
Proof.
  intros C D f texts vals R k j t m [A1 A2 A3 A4 A5 A6 A7] Hu Hl Hq Hf Hj. unfold race_get, getitem. rewrite Hq.
  destruct (A6 j Hj) as (mj & t' & m' & E1 & E2 & E3). assert (m' = m) by congruence. subst m'. unfold file in Hf.
  destruct (is_changed_ready C (r_W R) D (r_P R j) f t m A1 Hu Hf) as [[Hfr ->]|[Hfr ->]]; unfold fresh in Hfr; rewrite E1 in Hfr.
  - left. rewrite E1. split; [f_equal; lia|]. rewrite (A5 j) by lia. reflexivity.
  - right. rewrite E1. split; [intro E; injection E as ->; apply Hfr; lia|].
    rewrite (read_ready C (r_W R) D f t m A1 Hu Hl Hf). destruct (content C t); [|reflexivity].
    cbn [cache s_storage snd]. rewrite dget_dset_same. reflexivity.
Qed.

Lemma start_rinv : forall C D f vals texts W P, placed C W D -> flat W D ->
  (forall t m, dget (w_files W) (child D f) = Some (t, m) -> m <= w_clock W) -> rinv C D f vals texts (start_race W P).
Proof.
  intros C D f vals texts W P H1 H2 H3. constructor; cbn [start_race r_W r_P r_pc r_lock].
  - split; assumption.
  - intro j. split; discriminate.
  - intros j Hj. lia.
  - exact H3.
  - intros j Hj. lia.
  - intros j Hj. discriminate.
  - intros _ [j Hj]. lia.
Qed.

Theorem race_result : forall C D W P k f vals texts l,
  placed C W D -> flat W D -> plain_key k -> qpkey_serialize k = Ok f ->
  (forall t m, dget (w_files W) (child D f) = Some (t, m) -> m <= w_clock W) ->
  (forall i, c_ser C (vals i) = Ok (texts i) /\ encodable (texts i)) ->
  let R := race_run C f vals (start_race W P) l in
  (forall j, r_pc R j = O \/ r_pc R j = 4%nat) -> (exists j, r_pc R j = 4%nat) ->
  exists w, r_pc R w = 4%nat /\
    (exists m, dget (w_files (r_W R)) (child D f) = Some (texts w, m)) /\
    race_get C R w k = Ok (vals w) /\
    forall j, r_pc R j = 4%nat ->
      (race_get C R j k = c_deser C (strip (newlines (texts w))) \/ race_get C R j k = Ok (vals j)) /\
      forall l1 l2, l = l1 ++ l2 ->
        r_pc (race_run C f vals (start_race W P) l1) j = 4%nat ->
        (exists i, (r_pc (race_run C f vals (start_race W P) l1) i <= 1)%nat /\ r_pc R i = 4%nat) ->
        race_get C R j k = c_deser C (strip (newlines (texts w))).
Proof.
  intros C D W P k f vals texts l H1 H2 Hk Hq Hc Hs R Hend [j0 Hj0].
  destruct (plain_name k Hk) as (f' & Hq' & Hu & Hl). assert (f' = f) by congruence. subst f'.
  pose proof (start_rinv C D f vals texts W P H1 H2 Hc) as I0.
  pose proof (run_rinv C D f vals texts Hu Hl Hs l _ I0) as I. fold R in I.
  assert (El : r_lock R = None).
  { destruct (r_lock R) as [x|] eqn:E; [|reflexivity]. apply (ri_lock _ _ _ _ _ _ I) in E. destruct (Hend x); lia. }
  destruct (ri_writer _ _ _ _ _ _ I El) as (w & m & Ef & Ew & Et); [exists j0; lia|].
  assert (Hw : r_pc R w = 4%nat) by (destruct (Hend w); lia). specialize (Et Hw).
  exists w. split; [exact Hw|]. split; [exists m; exact Ef|]. split.
  { destruct (get_after C D f texts vals R k w _ m I Hu Hl Hq Ef Hw) as [[_ E]|[E _]]; [exact E|congruence]. }
  intros j Hj. destruct (get_after C D f texts vals R k j _ m I Hu Hl Hq Ef Hj) as [[Em E]|[_ E]].
  - split; [right; exact E|]. intros l1 l2 -> Hj1 (i & Hi & Hi4).
    pose proof (run_rinv C D f vals texts Hu Hl Hs l1 _ I0) as I1.
    set (R1 := race_run C f vals (start_race W P) l1) in *.
    assert (ER : R = race_run C f vals R1 l2) by (unfold R, R1, race_run; apply fold_left_app).
    assert (Y : younger D f (w_clock (r_W R1)) i R1) by (split; [lia|intro; lia]).
    pose proof (run_younger C D f vals texts Hu Hl Hs _ i l2 R1 I1 Y) as [_ Y2]. rewrite <- ER in Y2.
    destruct (Y2 ltac:(lia)) as (t2 & m2 & Ef2 & Hlt).
    destruct (run_done C f vals l2 R1 j Hj1) as [_ EP]. rewrite <- ER in EP.
    destruct (ri_time _ _ _ _ _ _ I1 j Hj1) as (m1 & t1 & m1' & X1 & X2 & X3).
    pose proof (ri_clock _ _ _ _ _ _ I1 t1 m1' X2) as X4. rewrite EP in Em. exfalso.
    assert (m2 = m) by congruence. assert (m1 = m) by congruence. lia.
  - split; [left; exact E|]. intros. exact E.
Qed.
