(** Histories of file storage operations of several processes. *)
From Coq Require Import List NArith ZArith Bool String Lia Arith.
From Verif Require Import Base.Ustr Base.UstrLemmas Base.Utf8 Base.Percent Base.PercentLemmas
  Model.Value Model.Converter Model.FileStore Spec.CodecSpec Spec.StorageSpec
  Proofs.ValueLemmas Proofs.CodecLemmas Proofs.StorageLemmas.
Import ListNotations.
Open Scope list_scope.
Open Scope N_scope.

Definition ghost := ustr -> option (nat * value).

(** the file [f] of the key last written as [g] says *)
Definition key_ok (C : conf) (D : ustr) (W : world) (P : procs) (f : ustr) (g : option (nat * value)) : Prop :=
  match g with
  | None => dget (w_files W) (child D f) = None
  | Some (w, v) => exists t m x,
      c_ser C v = Ok t /\ encodable t /\ content C t = Ok x /\
      dget (w_files W) (child D f) = Some (t, m) /\ m <= w_clock W /\
      fresh (P w) f m /\ dget (s_storage (P w)) f = Some v /\
      forall p, p <> w -> fresh (P p) f m -> dget (s_storage (P p)) f = Some x
  end.
Record inv (Q : nat -> Prop) (C : conf) (D : ustr) (W : world) (P : procs) (G : ghost) : Prop := mkInv {
  i_ready : ready C W D;
  i_nodup : NoDup (map fst (w_files W));
  i_snodup : forall p, NoDup (map fst (s_storage (P p)));
  i_time : forall p f m, dget (s_fmtime (P p)) f = Some m -> m <= w_clock W /\ (Q p -> m < w_clock W);
  i_key : forall k f, plain_key k -> qpkey_serialize k = Ok f -> key_ok C D W P f (G k);
  i_file : forall f, has_char 47 f = false -> lockname f = false -> dget (w_files W) (child D f) <> None ->
    exists k, plain_key k /\ qpkey_serialize k = Ok f;
  i_plain : forall k, G k <> None -> plain_key k }.

Lemma key_ok_ext : forall C D W P P' f g, (forall p, P p = P' p) -> key_ok C D W P f g -> key_ok C D W P' f g.
Proof.
  intros C D W P P' f [[w v]|] HP H; [|exact H]. destruct H as (t & m & x & H1 & H2 & H3 & H4 & H5 & H6 & H7 & H8).
  exists t, m, x. rewrite <- HP. repeat (split; [assumption|]). intros p Hp. rewrite <- HP. auto.
Qed.
Lemma inv_ext : forall (Q Q' : nat -> Prop) C D W P P' G G', inv Q C D W P G -> (forall p, P p = P' p) -> (forall k, G k = G' k) ->
  (forall p, Q' p -> Q p) -> inv Q' C D W P' G'.
Proof.
  intros Q Q' C D W P P' G G' [H1 H2 H2' H3 H4 H5 H6] HP HG HQ. constructor.
  - exact H1.
  - exact H2.
  - intro p. rewrite <- HP. auto.
  - intros p f m H. rewrite <- HP in H. destruct (H3 p f m H). auto.
  - intros k f Hk Hf. rewrite <- HG. eapply key_ok_ext; eauto.
  - exact H5.
  - intros k. rewrite <- HG. auto.
Qed.
Lemma pset_id : forall P i p, pset P i (P i) p = P p.
Proof. intros. unfold pset. destruct (Nat.eqb_spec p i); congruence. Qed.
Lemma pset_same : forall P i S, pset P i S i = S.
Proof. intros. unfold pset. rewrite Nat.eqb_refl. reflexivity. Qed.
Lemma pset_other : forall P i S p, p <> i -> pset P i S p = P p.
Proof. intros. unfold pset. destruct (Nat.eqb_spec p i); congruence. Qed.

(** ** single steps *)
Lemma key_ok_locked : forall C D W P f g l, lockname f = false -> key_ok C D W P f g -> key_ok C D (locked D W l) P f g.
Proof.
  intros C D W P f g l Hl H. unfold key_ok in *. rewrite (files_locked D W l f Hl). exact H.
Qed.
Lemma inv_locked : forall Q C D W P G f, inv Q C D W P G -> inv Q C D (locked D W f) P G.
Proof.
  intros Q C D W P G f [H1 H2 H2' H3 H4 H5 H6]. constructor;
    [apply ready_put; exact H1|apply dset_nodup; exact H2|exact H2'|exact H3| | |exact H6].
  - intros k g Hk Hg. apply key_ok_locked; [|auto]. destruct (plain_name k Hk) as (g' & Hg' & _ & Hl). congruence.
  - intros g Hg Hl. rewrite (files_locked D W f g Hl). auto.
Qed.

Lemma file_content : forall Q C D W P G f t m, inv Q C D W P G -> has_char 47 f = false -> lockname f = false ->
  dget (w_files W) (child D f) = Some (t, m) ->
  exists k w v x, plain_key k /\ qpkey_serialize k = Ok f /\ G k = Some (w, v) /\ content C t = Ok x /\
    m <= w_clock W /\ fresh (P w) f m /\ dget (s_storage (P w)) f = Some v /\
    forall p, p <> w -> fresh (P p) f m -> dget (s_storage (P p)) f = Some x.
Proof.
  intros Q C D W P G f t m H Hf Hl Hg. destruct (i_file _ _ _ _ _ _ H f Hf Hl ltac:(congruence)) as (k & Hk & Hq).
  pose proof (i_key _ _ _ _ _ _ H k f Hk Hq) as Ho. destruct (G k) as [[w v]|] eqn:E; [|unfold key_ok in Ho; congruence].
  destruct Ho as (t' & m' & x & H1 & H2 & H3 & H4 & H5 & H6 & H7 & H8). rewrite H4 in Hg. injection Hg as <- <-.
  exists k, w, v, x. repeat (split; [assumption|]). assumption.
Qed.

Lemma fresh_seen : forall S f g m m' v, fresh (seen (cache S f v) f m) g m' <-> if ueqb g f then m' <= m else fresh S g m'.
Proof. intros. unfold fresh. cbn [seen cache s_fmtime]. rewrite dget_dset. destruct (ueqb g f); tauto. Qed.
Lemma storage_seen : forall S f g m v, dget (s_storage (seen (cache S f v) f m)) g = if ueqb g f then Some v else dget (s_storage S) g.
Proof. intros. cbn. apply dget_dset. Qed.

Lemma inv_read : forall Q C D W P G i S f t m x, inv Q C D W (pset P i S) G -> ~ Q i ->
  has_char 47 f = false -> lockname f = false ->
  dget (w_files W) (child D f) = Some (t, m) -> ~ fresh S f m -> content C t = Ok x ->
  inv Q C D W (pset P i (seen (cache S f x) f m)) G.
Proof.
  intros Q C D W P G i S f t m x H HQ Hf Hl Hg Hnf Hx.
  destruct (file_content _ _ _ _ _ _ f t m H Hf Hl Hg) as (k0 & w0 & v0 & x0 & Hk0 & Hq0 & HG0 & Hx0 & Hm0 & _).
  destruct H as [H1 H2 H2' H3 H4 H5 H6]. constructor; auto.
  - intro p. destruct (Nat.eq_dec p i) as [->|Hp]; [|rewrite pset_other by auto; specialize (H2' p); rewrite pset_other in H2' by auto; exact H2'].
    rewrite pset_same. cbn. apply dset_nodup. specialize (H2' i). rewrite pset_same in H2'. exact H2'.
  - intros p g m' Hp. destruct (Nat.eq_dec p i) as [->|Hpi].
    + rewrite pset_same in Hp. cbn [seen cache s_fmtime] in Hp. rewrite dget_dset in Hp.
      destruct (ueqb g f); [injection Hp as <-; split; [exact Hm0|intro; contradiction]|].
      apply (H3 i g m'). rewrite pset_same. exact Hp.
    + rewrite pset_other in Hp by auto. apply (H3 p g m'). rewrite pset_other by auto. exact Hp.
  - intros k g Hk Hq. specialize (H4 k g Hk Hq). destruct (G k) as [[w v]|] eqn:E; [|exact H4].
    destruct H4 as (t' & m' & x' & A1 & A2 & A3 & A4 & A5 & A6 & A7 & A8). exists t', m', x'.
    repeat (split; [assumption|]).
    destruct (ueqb g f) eqn:Egf.
    + apply ueqb_eq in Egf. subst g. rewrite A4 in Hg. injection Hg as -> ->.
      assert (Hwi : w <> i) by (intro; subst w; rewrite pset_same in A6; contradiction).
      rewrite pset_other in A6, A7 |- * by auto. repeat (split; [assumption|]).
      intros p Hp Hfr. destruct (Nat.eq_dec p i) as [->|Hpi].
      * rewrite pset_same, storage_seen, ueqb_refl. congruence.
      * rewrite pset_other in Hfr |- * by auto. specialize (A8 p Hp). rewrite pset_other in A8 by auto. auto.
    + destruct (Nat.eq_dec w i) as [->|Hwi].
      * rewrite pset_same in A6, A7 |- *. rewrite fresh_seen, storage_seen, Egf. repeat (split; [assumption|]).
        intros p Hp. specialize (A8 p Hp). rewrite pset_other in A8 |- * by auto. exact A8.
      * rewrite pset_other in A6, A7 |- * by auto. repeat (split; [assumption|]).
        intros p Hp. specialize (A8 p Hp). destruct (Nat.eq_dec p i) as [->|Hpi].
        -- rewrite pset_same in A8 |- *. rewrite fresh_seen, storage_seen, Egf. exact A8.
        -- rewrite pset_other in A8 |- * by auto. exact A8.
Qed.

Definition gset (G : ghost) (k : ustr) (x : option (nat * value)) : ghost := fun k' => if ueq_dec k k' then x else G k'.

Lemma inv_set : forall Q C D W P G i S k f v t x, inv Q C D W (pset P i S) G -> (forall p, p <> i -> Q p) -> ~ Q i ->
  plain_key k -> qpkey_serialize k = Ok f -> c_ser C v = Ok t -> encodable t -> content C t = Ok x ->
  inv Q C D (written D W f t) (pset P i (seen (cache S f v) f (w_clock W))) (gset G k (Some (i, v))).
Proof.
  intros Q C D W P G i S k f v t x [H1 H2 H2' H3 H4 H5 H6] HQ HQi Hk Hf Hs He Hx.
  assert (Hl : lockname f = false) by (destruct (plain_name k Hk) as (f' & Hf' & _ & Hl); congruence).
  constructor.
  - apply ready_put, ready_put. exact H1.
  - unfold written. cbn [put w_files]. apply dset_nodup. apply dset_nodup. exact H2.
  - intro p. destruct (Nat.eq_dec p i) as [->|Hp]; [|rewrite pset_other by auto; specialize (H2' p); rewrite pset_other in H2' by auto; exact H2'].
    rewrite pset_same. cbn. apply dset_nodup. specialize (H2' i). rewrite pset_same in H2'. exact H2'.
  - intros p g m Hp. change (w_clock (written D W f t)) with (w_clock W). destruct (Nat.eq_dec p i) as [->|Hpi].
    + rewrite pset_same in Hp. cbn [seen cache s_fmtime] in Hp. rewrite dget_dset in Hp.
      destruct (ueqb g f); [injection Hp as <-; split; [lia|intro; contradiction]|].
      apply (H3 i g m). rewrite pset_same. exact Hp.
    + rewrite pset_other in Hp by auto. apply (H3 p g m). rewrite pset_other by auto. exact Hp.
  - intros k' g Hk' Hg. unfold gset. destruct (ueq_dec k k') as [<-|Hne].
    + assert (g = f) by congruence. subst g. exists t, (w_clock W), x. repeat (split; [assumption|]).
      split; [rewrite (files_written D W f t f Hl), ueqb_refl; reflexivity|].
      split; [cbn; lia|]. rewrite pset_same, fresh_seen, storage_seen, ueqb_refl.
      split; [lia|]. split; [reflexivity|]. intros p Hp Hfr. exfalso. rewrite pset_other in Hfr by auto.
      unfold fresh in Hfr. destruct (dget (s_fmtime (P p)) f) as [m|] eqn:Em; [|exact Hfr].
      destruct (H3 p f m) as [_ Hlt]; [rewrite pset_other by auto; exact Em|]. specialize (Hlt (HQ p Hp)). lia.
    + assert (Egf : ueqb g f = false).
      { apply not_true_is_false. intro E. apply ueqb_eq in E. subst g. apply Hne. exact (qp_inj k k' f Hf Hg). }
      assert (Hlg : lockname g = false) by (destruct (plain_name k' Hk') as (g' & Hg' & _ & Hlg); congruence).
      specialize (H4 k' g Hk' Hg). unfold key_ok in *. rewrite (files_written D W f t g Hlg), Egf.
      destruct (G k') as [[w v']|]; [|exact H4].
      destruct H4 as (t' & m' & x' & A1 & A2 & A3 & A4 & A5 & A6 & A7 & A8). exists t', m', x'.
      repeat (split; [assumption|]).
      destruct (Nat.eq_dec w i) as [->|Hwi].
      * rewrite pset_same in A6, A7 |- *. rewrite fresh_seen, storage_seen, Egf. repeat (split; [assumption|]).
        intros p Hp. specialize (A8 p Hp). rewrite pset_other in A8 |- * by auto. exact A8.
      * rewrite pset_other in A6, A7 |- * by auto. repeat (split; [assumption|]).
        intros p Hp. specialize (A8 p Hp). destruct (Nat.eq_dec p i) as [->|Hpi].
        -- rewrite pset_same in A8 |- *. rewrite fresh_seen, storage_seen, Egf. exact A8.
        -- rewrite pset_other in A8 |- * by auto. exact A8.
  - intros g Hg Hlg Hne. rewrite (files_written D W f t g Hlg) in Hne. destruct (ueqb g f) eqn:E; [|auto].
    apply ueqb_eq in E. subst g. eauto.
  - intros k' Hne. unfold gset in Hne. destruct (ueq_dec k k') as [<-|]; auto.
Qed.

(** removing the file [f]: no key of that name is left *)
Definition gdel (G : ghost) (f : ustr) : ghost :=
  fun k => match qpkey_serialize k with Ok g => if ueqb g f then None else G k | Err _ => G k end.
Lemma inv_forget : forall Q C D W W' P G i S f, inv Q C D W (pset P i S) G ->
  ready C W' D -> NoDup (map fst (w_files W')) -> w_clock W' = w_clock W ->
  (forall g, lockname g = false -> dget (w_files W') (child D g) = if ueqb g f then None else dget (w_files W) (child D g)) ->
  inv Q C D W' (pset P i (forget S f)) (gdel G f).
Proof.
  intros Q C D W W' P G i S f [H1 H2 H2' H3 H4 H5 H6] HR HN HC HF. constructor.
  - exact HR.
  - exact HN.
  - intro p. destruct (Nat.eq_dec p i) as [->|Hp]; [|rewrite pset_other by auto; specialize (H2' p); rewrite pset_other in H2' by auto; exact H2'].
    rewrite pset_same. cbn. apply ddel_nodup. specialize (H2' i). rewrite pset_same in H2'. exact H2'.
  - intros p g m Hp. rewrite HC. apply (H3 p g m). destruct (Nat.eq_dec p i) as [->|Hpi];
      [rewrite pset_same in *; exact Hp|rewrite pset_other in * by auto; exact Hp].
  - intros k g Hk Hg. unfold gdel. rewrite Hg.
    assert (Hlg : lockname g = false) by (destruct (plain_name k Hk) as (g' & Hg' & _ & Hlg); congruence).
    destruct (ueqb g f) eqn:E.
    + unfold key_ok. rewrite (HF g Hlg), E. reflexivity.
    + specialize (H4 k g Hk Hg). unfold key_ok in *. rewrite (HF g Hlg), E, HC.
      destruct (G k) as [[w v]|]; [|exact H4].
      destruct H4 as (t' & m' & x' & A1 & A2 & A3 & A4 & A5 & A6 & A7 & A8). exists t', m', x'.
      assert (Hd : forall S', dget (s_storage (forget S' f)) g = dget (s_storage S') g).
      { intro S'. cbn. rewrite dget_ddel, E. reflexivity. }
      repeat (split; [assumption|]).
      destruct (Nat.eq_dec w i) as [->|Hwi].
      * rewrite pset_same in A6, A7 |- *. rewrite Hd. repeat (split; [assumption|]).
        intros p Hp. specialize (A8 p Hp). rewrite pset_other in A8 |- * by auto. exact A8.
      * rewrite pset_other in A6, A7 |- * by auto. repeat (split; [assumption|]).
        intros p Hp. specialize (A8 p Hp). destruct (Nat.eq_dec p i) as [->|Hpi].
        -- rewrite pset_same in A8 |- *. rewrite Hd. exact A8.
        -- rewrite pset_other in A8 |- * by auto. exact A8.
  - intros g Hg Hlg Hne. rewrite (HF g Hlg) in Hne. destruct (ueqb g f); [congruence|]. auto.
  - intros k Hne. apply H6. unfold gdel in Hne. destruct (qpkey_serialize k); [destruct (ueqb _ f); congruence|exact Hne].
Qed.

(** ** the operations *)
Lemma usable_dec : forall f, has_char 47 f = false -> usable f \/ dot f || dotdot f = true.
Proof.
  intros f H. destruct (dot f) eqn:E1; [right; reflexivity|]. destruct (dotdot f) eqn:E2; [right; reflexivity|].
  left. repeat split; assumption.
Qed.

Lemma del_step : forall Q C D W P G i S f, inv Q C D W (pset P i S) G -> has_char 47 f = false ->
  exists W', del C W S f = (W', forget S f, Ok tt) /\ w_clock W' = w_clock W /\
    inv Q C D W' (pset P i (forget S f)) (gdel G f) /\
    (forall g, lockname g = false -> usable g ->
       dget (w_files W') (child D g) = if ueqb g f then None else dget (w_files W) (child D g)).
Proof.
  intros Q C D W P G i S f H Hf. pose proof (i_ready _ _ _ _ _ _ H) as HR. pose proof (i_nodup _ _ _ _ _ _ H) as HN.
  destruct (usable_dec f Hf) as [Hu|Hu].
  - rewrite (del_ready C W D S f HR Hu). destruct (dget (w_files W) (child D f)) as [tm|] eqn:E.
    + eexists. split; [reflexivity|]. split; [reflexivity|]. split.
      * apply (inv_forget Q C D W _ P G i S f H).
        -- eapply ready_same; [exact HR|reflexivity|reflexivity].
        -- cbn [removed w_files]. apply ddel_nodup. cbn. apply dset_nodup. exact HN.
        -- reflexivity.
        -- intros g Hg. apply files_removed. exact Hg.
      * intros g Hg _. apply files_removed. exact Hg.
    + assert (HF : forall g, dget (w_files W) (child D g) = if ueqb g f then None else dget (w_files W) (child D g)).
      { intro g. destruct (ueqb g f) eqn:Eg; [apply ueqb_eq in Eg; subst; exact E|reflexivity]. }
      eexists. split; [reflexivity|]. split; [reflexivity|]. split.
      * apply (inv_forget Q C D W _ P G i S f H HR HN eq_refl). intros g _. apply HF.
      * intros g _ _. apply HF.
  - rewrite (del_unusable C W D S f HR Hf Hu). exists W. split; [reflexivity|]. split; [reflexivity|].
    assert (HU : forall g, usable g -> ueqb g f = false).
    { intros g (_ & Hg1 & Hg2). apply not_true_is_false. intro E. apply ueqb_eq in E. subst. rewrite Hg1, Hg2 in Hu. discriminate. }
    split.
    + destruct H as [H1 H2 H2' H3 H4 H5 H6]. apply (inv_ext Q Q C D W (pset P i (forget S f)) _ G); auto.
      * constructor; auto.
        -- intro p. destruct (Nat.eq_dec p i) as [->|Hp]; [|rewrite pset_other by auto; specialize (H2' p); rewrite pset_other in H2' by auto; exact H2'].
           rewrite pset_same. cbn. apply ddel_nodup. specialize (H2' i). rewrite pset_same in H2'. exact H2'.
        -- intros p g m Hp. apply (H3 p g m). destruct (Nat.eq_dec p i) as [->|Hpi];
           [rewrite pset_same in *; exact Hp|rewrite pset_other in * by auto; exact Hp].
        -- intros k g Hk Hg. destruct (plain_name k Hk) as (g' & Hg' & Hug & _).
           assert (g' = g) by congruence. subst g'. pose proof (HU g Hug) as Eg.
           specialize (H4 k g Hk Hg). destruct (G k) as [[w v]|]; [|exact H4].
           destruct H4 as (t' & m' & x' & A1 & A2 & A3 & A4 & A5 & A6 & A7 & A8). exists t', m', x'.
           assert (Hd : forall S', dget (s_storage (forget S' f)) g = dget (s_storage S') g).
           { intro S'. cbn. rewrite dget_ddel, Eg. reflexivity. }
           repeat (split; [assumption|]).
           destruct (Nat.eq_dec w i) as [->|Hwi].
           ++ rewrite pset_same in A6, A7 |- *. rewrite Hd. repeat (split; [assumption|]).
              intros p Hp. specialize (A8 p Hp). rewrite pset_other in A8 |- * by auto. exact A8.
           ++ rewrite pset_other in A6, A7 |- * by auto. repeat (split; [assumption|]).
              intros p Hp. specialize (A8 p Hp). destruct (Nat.eq_dec p i) as [->|Hpi].
              ** rewrite pset_same in A8 |- *. rewrite Hd. exact A8.
              ** rewrite pset_other in A8 |- * by auto. exact A8.
      * intro k. unfold gdel. destruct (qpkey_serialize k) as [g|] eqn:Eq; [|reflexivity].
        destruct (ueqb g f) eqn:Eg; [|reflexivity]. apply ueqb_eq in Eg. subst g.
        destruct (G k) eqn:E; [|reflexivity]. exfalso.
        destruct (plain_name k (H6 k ltac:(congruence))) as (g' & Hg' & Hug & _).
        assert (g' = f) by congruence. subst g'. pose proof (HU f Hug) as Z. rewrite ueqb_refl in Z. discriminate.
    + intros g _ Hg. rewrite (HU g Hg). reflexivity.
Qed.

Lemma fresh_dec : forall S f m, fresh S f m \/ ~ fresh S f m.
Proof. intros. unfold fresh. destruct (dget (s_fmtime S) f) as [t|]; [|auto]. destruct (N.le_gt_cases m t); [auto|right; lia]. Qed.

(** a file is looked at *)
Lemma synch_file_step : forall Q C D W P G i S f, inv Q C D W (pset P i S) G -> ~ Q i -> has_char 47 f = false ->
  exists W' S', synch_file C W S f = (W', S', Ok tt) /\ inv Q C D W' (pset P i S') G /\ w_clock W' = w_clock W /\
    (forall g, lockname g = false -> dget (w_files W') (child D g) = dget (w_files W) (child D g)) /\
    (forall g v, dget (s_storage S') g = Some v -> dget (s_storage S) g = Some v \/
      (has_char 47 g = false /\ lockname g = false /\ dget (w_files W) (child D g) <> None)).
Proof.
  intros Q C D W P G i S f H HQ Hf. pose proof (i_ready _ _ _ _ _ _ H) as HR.
  assert (Triv : exists W' S', (W, S, Ok tt) = (W', S', @Ok unit tt) /\ inv Q C D W' (pset P i S') G /\ w_clock W' = w_clock W /\
    (forall g, lockname g = false -> dget (w_files W') (child D g) = dget (w_files W) (child D g)) /\
    (forall g v, dget (s_storage S') g = Some v -> dget (s_storage S) g = Some v \/
      (has_char 47 g = false /\ lockname g = false /\ dget (w_files W) (child D g) <> None))).
  { exists W, S. split; [reflexivity|]. split; [exact H|]. split; [reflexivity|]. split; auto. }
  unfold synch_file. destruct (usable_dec f Hf) as [Hu|Hu].
  - rewrite (file_at_ready C W D f HR Hu). destruct (dget (w_files W) (child D f)) as [[t m]|] eqn:E; [|exact Triv].
    change (endswith (u ".lock") f) with (lockname f). destruct (lockname f) eqn:Hl; [exact Triv|].
    destruct (file_content _ _ _ _ _ _ f t m H Hf Hl E) as (k & w & v & x & Hk & Hq & HG & Hx & Hm & _).
    assert (Read : ~ fresh S f m ->
      exists W' S', (locked D W f, seen (cache S f x) f m, Ok tt) = (W', S', @Ok unit tt) /\
      inv Q C D W' (pset P i S') G /\ w_clock W' = w_clock W /\
      (forall g, lockname g = false -> dget (w_files W') (child D g) = dget (w_files W) (child D g)) /\
      (forall g v, dget (s_storage S') g = Some v -> dget (s_storage S) g = Some v \/
        (has_char 47 g = false /\ lockname g = false /\ dget (w_files W) (child D g) <> None))).
    { intro Hnf. eexists _, _. split; [reflexivity|]. split.
      - apply (inv_read Q C D (locked D W f) P G i S f t m x); auto.
        + apply inv_locked. exact H.
        + rewrite (files_locked D W f f Hl). exact E.
      - split; [reflexivity|]. split; [intros g Hg; apply files_locked; exact Hg|].
        intros g v' Hg. rewrite storage_seen in Hg. destruct (ueqb g f) eqn:Eg; [|auto].
        apply ueqb_eq in Eg. subst g. right. repeat split; auto. congruence. }
    destruct (dhas (s_fmtime S) f) eqn:Hh.
    + destruct (is_changed_ready C W D S f t m HR Hu E) as [[Hfr ->]|[Hfr ->]]; [exact Triv|].
      rewrite (read_ready C W D f t m HR Hu Hl E), Hx. exact (Read Hfr).
    + rewrite (read_ready C W D f t m HR Hu Hl E), Hx. apply Read.
      apply dhas_false in Hh. unfold fresh. rewrite Hh. auto.
  - unfold file_at. rewrite (locate_unusable C W D f HR Hf Hu). exact Triv.
Qed.

Lemma synch_files_step : forall Q C D P G i l W S, inv Q C D W (pset P i S) G -> ~ Q i ->
  Forall (fun f => has_char 47 f = false) l ->
  exists W' S', synch_files C W S l = (W', S', Ok tt) /\ inv Q C D W' (pset P i S') G /\ w_clock W' = w_clock W /\
    (forall g, lockname g = false -> dget (w_files W') (child D g) = dget (w_files W) (child D g)) /\
    (forall g v, dget (s_storage S') g = Some v -> dget (s_storage S) g = Some v \/
      (has_char 47 g = false /\ lockname g = false /\ dget (w_files W) (child D g) <> None)).
Proof.
  induction l as [|f l IH]; intros W S H HQ Hl; cbn [synch_files].
  - exists W, S. split; [reflexivity|]. split; [exact H|]. split; [reflexivity|]. split; auto.
  - inversion Hl as [|? ? Hf Hl']; subst.
    destruct (synch_file_step Q C D W P G i S f H HQ Hf) as (W1 & S1 & -> & H1 & C1 & F1 & V1).
    destruct (IH W1 S1 H1 HQ Hl') as (W2 & S2 & -> & H2 & C2 & F2 & V2).
    exists W2, S2. split; [reflexivity|]. split; [exact H2|]. split; [congruence|]. split.
    + intros g Hg. rewrite (F2 g Hg). auto.
    + intros g v Hg. destruct (V2 g v Hg) as [V|(Va & Vb & Vc)]; [destruct (V1 g v V); auto|]. rewrite (F1 g Vb) in Vc. auto.
Qed.

Lemma in_dir_child : forall D f, has_char 47 f = false -> in_dir D (child D f) = Some f.
Proof.
  intros D f H. unfold in_dir.
  assert (E : startswith (D ++ [47]) (child D f) = true).
  { apply startswith_iff. exists f. unfold child. rewrite <- app_assoc. reflexivity. }
  rewrite E. replace (skipn (Datatypes.S (List.length D)) (child D f)) with f; [rewrite H; reflexivity|].
  unfold child. change (D ++ 47 :: f) with (D ++ [47] ++ f). rewrite app_assoc.
  replace (Datatypes.S (List.length D)) with (List.length (D ++ [47])) by (rewrite app_length; cbn; lia).
  rewrite skipn_app, skipn_all, Nat.sub_diag. reflexivity.
Qed.
Lemma in_dir_some : forall D p f, in_dir D p = Some f -> p = child D f /\ has_char 47 f = false.
Proof.
  intros D p f H. unfold in_dir in H. destruct (startswith (D ++ [47]) p) eqn:E; [|discriminate].
  apply startswith_iff in E. destruct E as [r ->].
  replace (skipn (Datatypes.S (List.length D)) ((D ++ [47]) ++ r)) with r in H.
  - destruct (has_char 47 r) eqn:Er; [discriminate|]. injection H as <-. split; [|exact Er].
    unfold child. rewrite <- app_assoc. reflexivity.
  - replace (Datatypes.S (List.length D)) with (List.length (D ++ [47])) by (rewrite app_length; cbn; lia).
    rewrite skipn_app, skipn_all, Nat.sub_diag. reflexivity.
Qed.
Lemma file_names_in : forall W D f, In f (file_names W D) <-> has_char 47 f = false /\ dget (w_files W) (child D f) <> None.
Proof.
  intros W D f. unfold file_names. rewrite in_flat_map. split.
  - intros ([p x] & Hin & Hf). cbn in Hf. destruct (in_dir D p) as [n|] eqn:E; [|destruct Hf].
    destruct Hf as [->|[]]. apply in_dir_some in E. destruct E as [-> E]. split; [exact E|].
    intro Hn. apply dget_None in Hn. apply Hn. apply in_map_iff. eexists. split; [|exact Hin]. reflexivity.
  - intros [Hf Hn]. destruct (dget (w_files W) (child D f)) as [x|] eqn:E; [|congruence].
    apply dget_In in E. exists (child D f, x). split; [exact E|]. cbn. rewrite (in_dir_child D f Hf). left. reflexivity.
Qed.
Lemma file_names_nodup : forall W D, NoDup (map fst (w_files W)) -> NoDup (file_names W D).
Proof.
  intros W D. unfold file_names. generalize (w_files W). induction d as [|[p x] d IH]; cbn [map flat_map fst]; intro H; [constructor|].
  inversion H as [|? ? Hn Hd]; subst. destruct (in_dir D p) as [n|] eqn:E; cbn [app]; [|auto].
  constructor; [|auto]. intro Hin. apply in_flat_map in Hin. destruct Hin as ([p' x'] & Hin & Hf). cbn in Hf.
  destruct (in_dir D p') as [n'|] eqn:E'; [|destruct Hf]. destruct Hf as [->|[]].
  apply in_dir_some in E, E'. destruct E as [-> _], E' as [-> _]. apply Hn. apply in_map_iff. exists (child D n, x'). auto.
Qed.
Lemma listdir_ready : forall C W D, ready C W D -> listdir W (c_fdir C) = Ok (file_names W D).
Proof. intros C W D [[_ H] _]. unfold listdir. rewrite H. reflexivity. Qed.

Lemma synch_step : forall Q C D W P G i S, inv Q C D W (pset P i S) G -> ~ Q i ->
  exists W' S', synch C W S = (W', S', Ok tt) /\ inv Q C D W' (pset P i S') G /\ w_clock W' = w_clock W /\
    (forall g, lockname g = false -> dget (w_files W') (child D g) = dget (w_files W) (child D g)) /\
    (forall g v, dget (s_storage S') g = Some v -> dget (s_storage S) g = Some v \/
      (has_char 47 g = false /\ lockname g = false /\ dget (w_files W) (child D g) <> None)).
Proof.
  intros Q C D W P G i S H HQ. unfold synch. rewrite (listdir_ready C W D (i_ready _ _ _ _ _ _ H)).
  apply (synch_files_step Q C D P G i (file_names W D) W S H HQ).
  apply Forall_forall. intros f Hf. apply file_names_in in Hf. tauto.
Qed.

(** everything in the cache of a process is in the storage, as far as the keys [R] are concerned *)
Definition own (R : ustr -> Prop) (S : st) (G : ghost) : Prop :=
  forall f v, dget (s_storage S) f = Some v ->
    exists k, plain_key k /\ qpkey_serialize k = Ok f /\ (R k -> G k <> None).

Lemma file_ghost : forall Q C D W P G f, inv Q C D W P G -> has_char 47 f = false -> lockname f = false ->
  dget (w_files W) (child D f) <> None -> exists k, plain_key k /\ qpkey_serialize k = Ok f /\ G k <> None.
Proof.
  intros Q C D W P G f H Hf Hl Hn. destruct (dget (w_files W) (child D f)) as [[t m]|] eqn:E; [|congruence].
  destruct (file_content _ _ _ _ _ _ f t m H Hf Hl E) as (k & w & v & x & Hk & Hq & HG & _).
  exists k. split; [exact Hk|]. split; [exact Hq|]. congruence.
Qed.
Lemma own_grow : forall R Q C D W P G S S', inv Q C D W P G -> own R S G ->
  (forall g v, dget (s_storage S') g = Some v -> dget (s_storage S) g = Some v \/
      (has_char 47 g = false /\ lockname g = false /\ dget (w_files W) (child D g) <> None)) -> own R S' G.
Proof.
  intros R Q C D W P G S S' H HO HV f v Hf. destruct (HV f v Hf) as [Hs|(H1 & H2 & H3)]; [exact (HO f v Hs)|].
  destruct (file_ghost _ _ _ _ _ _ f H H1 H2 H3) as (k & Hk & Hq & Hn). exists k. auto.
Qed.

Lemma getitem_step : forall R Q C D W P G i S k, inv Q C D W (pset P i S) G -> ~ Q i -> plain_key k ->
  exists W' S' r, getitem C W S k = (W', S', r) /\ inv Q C D W' (pset P i S') G /\ (own R S G -> own R S' G) /\
    match G k with
    | None => r = Err EKeyError
    | Some (w, v) => (i = w -> r = Ok v) /\ (i <> w -> exists x, storable C v x /\ r = Ok x)
    end.
Proof.
  intros R Q C D W P G i S k H HQ Hk. pose proof (i_ready _ _ _ _ _ _ H) as HR.
  destruct (plain_name k Hk) as (f & Hq & Hu & Hl). unfold getitem. rewrite Hq.
  pose proof (i_key _ _ _ _ _ _ H k f Hk Hq) as Ho. destruct (G k) as [[w v]|] eqn:EG.
  - destruct Ho as (t & m & x & A1 & A2 & A3 & A4 & A5 & A6 & A7 & A8).
    destruct (is_changed_ready C W D S f t m HR Hu A4) as [[Hfr ->]|[Hfr ->]].
    + eexists _, _, _. split; [reflexivity|]. split; [exact H|]. split; [auto|]. split.
      * intros <-. rewrite pset_same in A7. rewrite A7. reflexivity.
      * intro Hi. specialize (A8 i Hi). rewrite pset_same in A8. rewrite (A8 Hfr). exists x. split; [|reflexivity].
        exists t. auto.
    + rewrite (read_ready C W D f t m HR Hu Hl A4), A3.
      assert (Hwi : i <> w) by (intro; subst w; rewrite pset_same in A6; contradiction).
      eexists _, _, _. split; [reflexivity|]. split.
      * apply (inv_read Q C D (locked D W f) P G i S f t m x); auto.
        -- apply inv_locked. exact H.
        -- destruct Hu; assumption.
        -- rewrite (files_locked D W f f Hl). exact A4.
      * split.
        -- intro HO. apply (own_grow R Q C D W _ G S _ H HO). intros g v' Hg.
           change (cache (seen S f m) f x) with (seen (cache S f x) f m) in Hg. rewrite storage_seen in Hg.
           destruct (ueqb g f) eqn:E; [|auto]. apply ueqb_eq in E. subst g. right. destruct Hu. repeat split; auto. congruence.
        -- split; [contradiction|]. intros _. exists x. split; [exists t; auto|].
           cbn [cache s_storage]. rewrite dget_dset_same. reflexivity.
  - unfold key_ok in Ho. unfold is_changed. rewrite (file_at_ready C W D f HR Hu), Ho.
    eexists _, _, _. split; [reflexivity|]. split; [exact H|]. split; [auto|]. reflexivity.
Qed.

Lemma own_gset : forall R S G k f v i m, own R S G -> plain_key k -> qpkey_serialize k = Ok f ->
  own R (seen (cache S f v) f m) (gset G k (Some (i, v))).
Proof.
  intros R S G k f v i m HO Hk Hf g x Hg. rewrite storage_seen in Hg. unfold gset. destruct (ueqb g f) eqn:E.
  - apply ueqb_eq in E. subst g. exists k. split; [exact Hk|]. split; [exact Hf|]. intros _. destruct (ueq_dec k k); congruence.
  - destruct (HO g x Hg) as (k' & H1 & H2 & H3). exists k'. split; [exact H1|]. split; [exact H2|].
    destruct (ueq_dec k k'); [congruence|exact H3].
Qed.
Lemma own_gdel : forall R S G f, own R S G -> own R (forget S f) (gdel G f).
Proof.
  intros R S G f HO g x Hg. cbn [forget s_storage] in Hg. rewrite dget_ddel in Hg. destruct (ueqb g f) eqn:E; [discriminate|].
  destruct (HO g x Hg) as (k & H1 & H2 & H3). exists k. split; [exact H1|]. split; [exact H2|]. unfold gdel. rewrite H2, E. exact H3.
Qed.

Lemma set_step : forall R Q C D W P G i S k v w, inv Q C D W (pset P i S) G -> (forall p, p <> i -> Q p) -> ~ Q i ->
  plain_key k -> storable C v w ->
  exists W' S', set C W S k v = (W', S', Ok tt) /\ w_clock W' = w_clock W /\
    inv Q C D W' (pset P i S') (gset G k (Some (i, v))) /\ (own R S G -> own R S' (gset G k (Some (i, v)))).
Proof.
  intros R Q C D W P G i S k v w H HQ HQi Hk (t & Ht & He & Hx). destruct (plain_name k Hk) as (f & Hq & Hu & Hl).
  rewrite (set_ready C W D S k f v t (i_ready _ _ _ _ _ _ H) Hq Hu Ht He).
  eexists _, _. split; [reflexivity|]. split; [reflexivity|]. split.
  - apply (inv_set Q C D W P G i S k f v t w); auto.
  - intro HO. apply own_gset; auto.
Qed.

Lemma update_step : forall R Q C D P i d W G S, inv Q C D W (pset P i S) G -> (forall p, p <> i -> Q p) -> ~ Q i ->
  Forall (fun kv => plain_key (fst kv) /\ exists w, storable C (snd kv) w) d ->
  exists W' S', update C W S d = (W', S', Ok tt) /\
    inv Q C D W' (pset P i S') (fun k => after_op k (G k) (i, OUpdate d)) /\
    (own R S G -> own R S' (fun k => after_op k (G k) (i, OUpdate d))).
Proof.
  induction d as [|[k v] d IH]; intros W G S H HQ HQi Hd; cbn [update].
  - exists W, S. split; [reflexivity|]. split; [exact H|auto].
  - inversion Hd as [|? ? [Hk [w Hs]] Hd']; subst.
    destruct (set_step R Q C D W P G i S k v w H HQ HQi Hk Hs) as (W1 & S1 & -> & _ & H1 & O1).
    destruct (IH W1 _ S1 H1 HQ HQi Hd') as (W2 & S2 & -> & H2 & O2).
    exists W2, S2. split; [reflexivity|]. split; [|intro HO; exact (O2 (O1 HO))]. exact H2.
Qed.

Lemma del_all_step : forall R Q C D P i l W G S, inv Q C D W (pset P i S) G ->
  Forall (fun f => has_char 47 f = false) l ->
  exists W' S', del_all C W S l = (W', S', Ok tt) /\ inv Q C D W' (pset P i S') (fold_left gdel l G) /\
    (own R S G -> own R S' (fold_left gdel l G)).
Proof.
  induction l as [|f l IH]; intros W G S H Hl; cbn [del_all fold_left].
  - exists W, S. split; [reflexivity|]. split; [exact H|auto].
  - inversion Hl as [|? ? Hf Hl']; subst.
    destruct (del_step Q C D W P G i S f H Hf) as (W1 & -> & _ & H1 & _).
    destruct (IH W1 _ _ H1 Hl') as (W2 & S2 & -> & H2 & O2).
    exists W2, S2. split; [reflexivity|]. split; [exact H2|]. intro HO. apply O2, own_gdel, HO.
Qed.
Lemma fold_gdel : forall l G k f, qpkey_serialize k = Ok f -> (G k <> None -> In f l) -> fold_left gdel l G k = None.
Proof.
  induction l as [|g l IH]; intros G k f Hf H; cbn [fold_left].
  - destruct (G k); [exfalso; apply H; congruence|reflexivity].
  - apply (IH _ k f Hf). unfold gdel at 1. rewrite Hf. destruct (ueqb f g) eqn:E; [congruence|].
    intro Hn. destruct (H Hn) as [->|Hin]; [rewrite ueqb_refl in E; discriminate|exact Hin].
Qed.
Lemma own_ext : forall R S G G', own R S G -> (forall k, G k = G' k) -> own R S G'.
Proof. intros R S G G' H HG f v Hf. destruct (H f v Hf) as (k & H1 & H2 & H3). exists k. rewrite <- HG. auto. Qed.
Lemma fold_gdel_None : forall l G k, G k = None -> fold_left gdel l G k = None.
Proof.
  induction l as [|g l IH]; intros G k H; cbn [fold_left]; [exact H|]. apply IH. unfold gdel.
  destruct (qpkey_serialize k); [destruct (ueqb _ g); [reflexivity|exact H]|exact H].
Qed.
Lemma clear_step : forall R Q C D P i W G S, inv Q C D W (pset P i S) G ->
  exists W' S', clear C W S = (W', S', Ok tt) /\ inv Q C D W' (pset P i S') (fun _ => None) /\
    (own R S G -> own R S' (fun _ => None)).
Proof.
  intros R Q C D P i W G S H. unfold clear. rewrite (listdir_ready C W D (i_ready _ _ _ _ _ _ H)).
  destruct (del_all_step R Q C D P i (file_names W D) W G S H) as (W' & S' & -> & H' & O').
  { apply Forall_forall. intros f Hf. apply file_names_in in Hf. tauto. }
  assert (E : forall k, fold_left gdel (file_names W D) G k = None).
  { intro k. destruct (G k) eqn:EG; [|apply fold_gdel_None; exact EG].
    pose proof (i_plain _ _ _ _ _ _ H k ltac:(congruence)) as Hk. destruct (plain_name k Hk) as (f & Hq & Hu & Hl).
    apply (fold_gdel _ _ k f Hq). intros _. apply file_names_in. split; [destruct Hu; assumption|].
    pose proof (i_key _ _ _ _ _ _ H k f Hk Hq) as Ho. rewrite EG in Ho. destruct p as [w v0].
    destruct Ho as (t & m & x & _ & _ & _ & A & _). congruence. }
  exists W', S'. split; [reflexivity|]. split.
  - apply (inv_ext Q Q C D W' (pset P i S') _ _ _ H'); auto.
  - intro HO. apply (own_ext R S' _ _ (O' HO) E).
Qed.

(** the keys and items of a process that is alone *)
Lemma fst_decode_nodup : forall (d : dict value) (R : ustr -> Prop),
  NoDup (map fst d) -> (forall f v, dget d f = Some v -> exists k, qpkey_serialize k = Ok f) ->
  NoDup (map (fun kv => qpkey_deserialize (fst kv)) d).
Proof.
  intros d R Hn Hq. assert (Hin : forall f, In f (map fst d) -> exists k, qpkey_serialize k = Ok f).
  { intros f Hf. apply dget_Some_iff in Hf. destruct Hf as [v Hv]. eauto. }
  clear Hq. induction d as [|[f v] d IH]; cbn [map fst]; [constructor|].
  inversion Hn as [|? ? Hf Hn']; subst. constructor.
  - intro Hc. apply in_map_iff in Hc. destruct Hc as ([g w] & Heq & Hg). cbn [fst] in Heq.
    destruct (Hin f ltac:(left; reflexivity)) as [k Hk].
    destruct (Hin g) as [k' Hk']; [right; apply in_map_iff; exists (g, w); auto|].
    apply qp_ok in Hk, Hk'. pose proof (unquote_quote_plus _ _ Hk) as E1. pose proof (unquote_quote_plus _ _ Hk') as E2.
    unfold qpkey_deserialize in Heq. assert (k = k') by congruence. subst k'. assert (f = g) by congruence. subst g.
    apply Hf. apply in_map_iff. exists (f, w). auto.
  - apply IH; [exact Hn'|]. intros g Hg. apply Hin. right. exact Hg.
Qed.
Lemma items_answer : forall R Q C D W P G i S, inv Q C D W (pset P i S) G -> own R S G ->
  (forall k w v, R k -> G k = Some (w, v) -> w = i) ->
  let l := map (fun kv => (qpkey_deserialize (fst kv), snd kv)) (s_storage S) in
  NoDup (map fst l) /\ forall k v, R k -> (In (k, v) l <-> exists j, G k = Some (j, v)).
Proof.
  intros R Q C D W P G i S H HO HG l. subst l. rewrite map_map. cbn [fst].
  pose proof (i_snodup _ _ _ _ _ _ H i) as Hn. rewrite pset_same in Hn. split.
  - apply (fst_decode_nodup _ (fun _ => True) Hn). intros f v Hf. destruct (HO f v Hf) as (k & _ & Hk & _). eauto.
  - assert (Hkv : forall k f, R k -> plain_key k -> qpkey_serialize k = Ok f -> forall w v, G k = Some (w, v) -> dget (s_storage S) f = Some v).
    { intros k f HR Hk Hq w v E. pose proof (i_key _ _ _ _ _ _ H k f Hk Hq) as Ho. rewrite E in Ho.
      destruct Ho as (t & m & x & _ & _ & _ & _ & _ & _ & A & _). rewrite (HG k w v HR E), pset_same in A. exact A. }
    intros k v HR. rewrite in_map_iff. split.
    + intros ([f v'] & Heq & Hin). cbn [fst snd] in Heq. injection Heq as Hk ->.
      apply (In_dget _ _ _ Hn) in Hin. destruct (HO f v Hin) as (k' & Hk' & Hq' & Hne).
      assert (k' = k) by (apply qp_ok, unquote_quote_plus in Hq'; unfold qpkey_deserialize in Hk; congruence). subst k'.
      specialize (Hne HR).
      destruct (G k) as [[w v']|] eqn:E; [|congruence]. exists w. pose proof (Hkv k f HR Hk' Hq' w v' E). congruence.
    + intros [j E]. assert (Hk : plain_key k) by (apply (i_plain _ _ _ _ _ _ H); congruence).
      destruct (plain_name k Hk) as (f & Hq & _ & _). exists (f, v). cbn [fst snd]. split.
      * apply qp_ok, unquote_quote_plus in Hq. unfold qpkey_deserialize. congruence.
      * apply dget_In. exact (Hkv k f HR Hk Hq j v E).
Qed.
Lemma keys_answer : forall R (l : list (ustr * value)) (G : ghost),
  (forall k v, R k -> (In (k, v) l <-> exists j, G k = Some (j, v))) -> forall k, R k -> (In k (map fst l) <-> G k <> None).
Proof.
  intros R l G H k HR. split.
  - intro Hk. apply in_map_iff in Hk. destruct Hk as ([k' v] & <- & Hin). apply (H _ _ HR) in Hin. destruct Hin as [j Hj]. cbn [fst] in *. congruence.
  - intro Hn. destruct (G k) as [[j v]|] eqn:E; [|congruence]. apply in_map_iff. exists (k, v). split; [reflexivity|].
    apply (H _ _ HR). eauto.
Qed.

Lemma startswith_sep : forall c q x y, has_char c q = false -> startswith q (x ++ c :: y) = startswith q x.
Proof.
  induction q as [|h q IH]; intros [|z x] y H; cbn [app startswith]; try reflexivity;
    cbn [has_char existsb] in H; apply orb_false_iff in H; destruct H as [H1 H2].
  - rewrite N.eqb_sym, H1. reflexivity.
  - rewrite (IH x y H2). reflexivity.
Qed.
Lemma lock_path : forall C W D f, ready C W D -> has_char 47 f = false ->
  endswith (u ".lock") (path_join (c_fdir C) f) = lockname f.
Proof.
  intros C W D f [[Hd _] _] Hf. destruct (path_join_form (c_fdir C) f Hf Hd) as (d' & -> & _).
  unfold lockname, endswith. rewrite rev_app_distr. cbn [rev]. rewrite <- app_assoc. cbn [app].
  apply startswith_sep. reflexivity.
Qed.
Lemma len_answer : forall Q C D W P G, inv Q C D W P G ->
  exists l, len C W = Ok (List.length l) /\ NoDup l /\ forall k, In k l <-> G k <> None.
Proof.
  intros Q C D W P G H. pose proof (i_ready _ _ _ _ _ _ H) as HR. unfold len. rewrite (listdir_ready C W D HR).
  cbn [bind]. match goal with |- context [filter ?x ?y] => set (keep := filter x y) end.
  assert (Hkeep : forall f, In f keep <-> has_char 47 f = false /\ lockname f = false /\ dget (w_files W) (child D f) <> None).
  { intro f. unfold keep. rewrite filter_In, file_names_in, andb_true_iff, negb_true_iff. split.
    - intros [[H1 H2] [H3 H4]]. rewrite (lock_path C W D f HR H1) in H4. auto.
    - intros (H1 & H2 & H3). split; [auto|]. rewrite (lock_path C W D f HR H1). split; [|exact H2].
      destruct (file_ghost _ _ _ _ _ _ f H H1 H2 H3) as (k & Hk & Hq & _). destruct (plain_name k Hk) as (f' & Hf' & Hu & _).
      assert (f' = f) by congruence. subst f'. unfold isfile. rewrite (file_at_ready C W D f HR Hu).
      destruct (dget _ _); [reflexivity|congruence]. }
  assert (Hnd : NoDup keep) by (apply NoDup_filter, file_names_nodup, (i_nodup _ _ _ _ _ _ H)).
  exists (map qpkey_deserialize keep). rewrite map_length. split; [reflexivity|].
  assert (Hdec : forall f, In f keep -> exists k, plain_key k /\ qpkey_serialize k = Ok f /\ qpkey_deserialize f = k /\ G k <> None).
  { intros f Hf. apply Hkeep in Hf. destruct Hf as (H1 & H2 & H3).
    destruct (file_ghost _ _ _ _ _ _ f H H1 H2 H3) as (k & Hk & Hq & Hn). exists k. repeat split; auto; try apply Hk.
    apply qp_ok, unquote_quote_plus in Hq. exact Hq. }
  split.
  - clear Hkeep. induction keep as [|f l IH]; cbn [map]; [constructor|]. inversion Hnd as [|? ? Hf Hl]; subst.
    constructor; [|apply IH; auto; intros g Hg; apply Hdec; right; exact Hg].
    intro Hc. apply in_map_iff in Hc. destruct Hc as (g & Heq & Hg).
    destruct (Hdec f ltac:(left; reflexivity)) as (k & _ & Hq & Hd & _).
    destruct (Hdec g ltac:(right; exact Hg)) as (k' & _ & Hq' & Hd' & _).
    assert (k = k') by congruence. subst k'. assert (f = g) by congruence. subst g. contradiction.
  - intro k. rewrite in_map_iff. split.
    + intros (f & <- & Hf). destruct (Hdec f Hf) as (k & _ & _ & -> & Hn). exact Hn.
    + intro Hn. pose proof (i_plain _ _ _ _ _ _ H k Hn) as Hk. destruct (plain_name k Hk) as (f & Hq & Hu & Hl).
      exists f. split; [apply qp_ok, unquote_quote_plus in Hq; exact Hq|]. apply Hkeep. split; [destruct Hu; assumption|].
      split; [exact Hl|]. pose proof (i_key _ _ _ _ _ _ H k f Hk Hq) as Ho. destruct (G k) as [[w v]|]; [|congruence].
      destruct Ho as (t & m & x & _ & _ & _ & A & _). congruence.
Qed.

(** ** one operation *)
Definition gop (G : ghost) (e : nat * op) : ghost := fun k => after_op k (G k) e.
Definition never (p : nat) : Prop := False.

Lemma inv_tick : forall C D W P G i, inv never C D W P G -> inv (fun p => p <> i) C D (tick W) (pset P i (P i)) G.
Proof.
  intros C D W P G i [H1 H2 H2' H3 H4 H5 H6].
  apply (inv_ext (fun _ => True) _ C D (tick W) P _ G); auto; [|intro; symmetry; apply pset_id].
  constructor; auto.
  - intros p f m Hp. destruct (H3 p f m Hp) as [Hm _]. cbn [tick w_clock]. split; [|intros _]; lia.
  - intros k f Hk Hf. specialize (H4 k f Hk Hf). destruct (G k) as [[w v]|]; [|exact H4].
    destruct H4 as (t & m & x & A1 & A2 & A3 & A4 & A5 & A6). exists t, m, x. cbn [tick w_clock w_files].
    repeat (split; [assumption|]). split; [lia|exact A6].
Qed.

(** [answers] for the keys [R] only *)
Definition answers_on (R : ustr -> Prop) (g : ghost) (o : op) (r : outcome) : Prop :=
  match o with
  | OSet _ _ | ODel _ | OClear | OUpdate _ => r = RUnit (Ok tt)
  | OGet k => R k -> r = RVal (match g k with Some (_, v) => Ok v | None => Err EKeyError end)
  | OHas k => R k -> r = RBool (Ok (match g k with Some _ => true | None => false end))
  | OKeys => exists l, r = RKeys (Ok l) /\ NoDup l /\ forall k, R k -> (In k l <-> g k <> None)
  | OItems => exists l, r = RItems (Ok l) /\ NoDup (map fst l) /\
      forall k v, R k -> (In (k, v) l <-> exists i, g k = Some (i, v))
  | OLen => exists l, r = RLen (Ok (List.length l)) /\ NoDup l /\ forall k : ustr, In k l <-> g k <> None
  end.

Lemma exec_step : forall R C D W P G i o, inv never C D W P G -> legal C o ->
  exists W' S' r, exec C W (P i) o = (W', S', r) /\ inv never C D W' (pset P i S') (gop G (i, o)) /\
    (own R (P i) G -> own R S' (gop G (i, o))) /\
    (own R (P i) G -> (forall k w v, R k -> G k = Some (w, v) -> w = i) -> answers_on R G o r) /\
    (forall k, o = OGet k -> match G k with
       | None => r = RVal (Err EKeyError)
       | Some (w, v) => (i = w -> r = RVal (Ok v)) /\ (i <> w -> exists x, storable C v x /\ r = RVal (Ok x))
       end).
Proof.
  intros R C D W P G i o H0 HL. pose proof (inv_tick C D W P G i H0) as H. set (S := P i) in *.
  assert (HQ : forall p : nat, p <> i -> p <> i) by auto. assert (HQi : ~ (i <> i)) by auto.
  assert (Weak : forall W' S' G', inv (fun p => p <> i) C D W' (pset P i S') G' -> inv never C D W' (pset P i S') G').
  { intros W' S' G' HI. apply (inv_ext (fun p => p <> i) never C D W' (pset P i S') _ G'); auto. }
  assert (Syn : exists W' S', synch C (tick W) S = (W', S', Ok tt) /\ inv (fun p => p <> i) C D W' (pset P i S') G /\
     (own R S G -> own R S' G)).
  { destruct (synch_step _ C D (tick W) P G i S H HQi) as (W' & S' & E & H' & _ & _ & V). exists W', S'.
    split; [exact E|]. split; [exact H'|]. intro HO. exact (own_grow _ _ _ _ _ _ _ _ _ H HO V). }
  assert (Items : exists W' S' l, items C (tick W) S = (W', S', Ok l) /\ inv (fun p => p <> i) C D W' (pset P i S') G /\
     (own R S G -> own R S' G) /\ (own R S G -> (forall k w v, R k -> G k = Some (w, v) -> w = i) ->
        NoDup (map fst l) /\ forall k v, R k -> (In (k, v) l <-> exists j, G k = Some (j, v)))).
  { destruct Syn as (W' & S' & E & H' & O'). unfold items. rewrite E. eexists _, _, _. split; [reflexivity|].
    split; [exact H'|]. split; [exact O'|]. intros HO HG. exact (items_answer _ _ _ _ _ _ _ _ _ H' (O' HO) HG). }
  destruct o as [k v|k|k|k| | | | |d]; cbn [legal] in HL; cbn [exec].
  - destruct HL as [Hk [w Hs]].
    destruct (set_step R _ C D (tick W) P G i S k v w H HQ HQi Hk Hs) as (W' & S' & -> & _ & H' & O').
    eexists _, _, _. split; [reflexivity|].
    assert (E : forall k', gset G k (Some (i, v)) k' = gop G (i, OSet k v) k') by reflexivity.
    split; [apply Weak; exact H'|]. split; [exact O'|]. split; [reflexivity|]. discriminate.
  - destruct (getitem_step R _ C D (tick W) P G i S k H HQi HL) as (W' & S' & r & -> & H' & O' & A).
    eexists _, _, _. split; [reflexivity|]. split; [apply Weak; exact H'|]. split; [exact O'|]. split.
    + intros _ HG. cbn [answers_on]. intro HR. f_equal. destruct (G k) as [[w v]|] eqn:E; [|exact A].
      apply A. symmetry. exact (HG k w v HR E).
    + intros k' Ek. injection Ek as <-. destruct (G k) as [[w v]|]; [|congruence]. destruct A as [A1 A2]. split.
      * intro Hi. rewrite (A1 Hi). reflexivity.
      * intro Hi. destruct (A2 Hi) as (x & Hx & ->). eauto.
  - destruct HL as [Hk Hn]. pose proof (own_name_qp k Hn) as Hq.
    destruct (del_step _ C D (tick W) P G i S k H (qp_noslash k k Hq)) as (W' & -> & _ & H' & _).
    eexists _, _, _. split; [reflexivity|].
    assert (E : forall k', gdel G k k' = gop G (i, ODel k) k').
    { intro k'. unfold gdel, gop. cbn [after_op]. destruct (ueq_dec k k') as [<-|Hne].
      - rewrite Hq, ueqb_refl. reflexivity.
      - destruct (qpkey_serialize k') as [g|] eqn:Eg; [|reflexivity]. destruct (ueqb g k) eqn:Z; [|reflexivity].
        apply ueqb_eq in Z. subst g. exfalso. apply Hne. exact (qp_inj k k' k Hq Eg). }
    split; [apply Weak; apply (inv_ext _ _ C D W' _ _ _ _ H'); auto|].
    split; [intro HO; exact (own_ext _ _ _ _ (own_gdel _ _ _ _ HO) E)|]. split; [reflexivity|]. discriminate.
  - eexists _, _, _. split; [reflexivity|]. split; [apply Weak; exact H|]. split; [auto|]. split; [|discriminate].
    intros HO HG. cbn [answers_on]. intro HR. f_equal. unfold contains. destruct (plain_name k HL) as (f & Hq & _ & _).
    rewrite Hq. cbn [bind]. f_equal. destruct (G k) as [[w v]|] eqn:E.
    + pose proof (i_key _ _ _ _ _ _ H k f HL Hq) as Ho. rewrite E in Ho.
      destruct Ho as (t & m & x & _ & _ & _ & _ & _ & _ & A & _). rewrite (HG k w v HR E), pset_same in A.
      apply dhas_true. eauto.
    + apply dhas_false. destruct (dget (s_storage S) f) as [v|] eqn:Ef; [|reflexivity].
      destruct (HO f v Ef) as (k' & _ & Hq' & Hn). rewrite (qp_inj k' k f Hq' Hq) in Hn. specialize (Hn HR). congruence.
  - destruct Items as (W' & S' & l & E & H' & O' & A). unfold keys. rewrite E. eexists _, _, _. split; [reflexivity|].
    split; [apply Weak; exact H'|]. split; [exact O'|]. split; [|discriminate].
    intros HO HG. destruct (A HO HG) as [A1 A2]. exists (map fst l). split; [reflexivity|]. split; [exact A1|].
    exact (keys_answer R l G A2).
  - destruct Items as (W' & S' & l & E & H' & O' & A). rewrite E. eexists _, _, _. split; [reflexivity|].
    split; [apply Weak; exact H'|]. split; [exact O'|]. split; [|discriminate].
    intros HO HG. destruct (A HO HG) as [A1 A2]. exists l. auto.
  - eexists _, _, _. split; [reflexivity|]. split; [apply Weak; exact H|]. split; [auto|]. split; [|discriminate].
    intros _ _. destruct (len_answer _ _ _ _ _ _ H) as (l & El & Hl). exists l. rewrite El. auto.
  - destruct (clear_step R _ C D P i (tick W) G S H) as (W' & S' & -> & H' & O').
    eexists _, _, _. split; [reflexivity|]. split; [apply Weak; exact H'|]. split; [exact O'|]. split; [reflexivity|discriminate].
  - destruct (update_step R _ C D P i d (tick W) G S H HQ HQi HL) as (W' & S' & -> & H' & O').
    eexists _, _, _. split; [reflexivity|]. split; [apply Weak; exact H'|]. split; [exact O'|]. split; [reflexivity|discriminate].
Qed.

(** ** histories *)
Lemma inv_start : forall C D W, placed C W D -> flat W D -> no_files W D -> NoDup (map fst (w_files W)) ->
  inv never C D W (fun _ => s_new) (fun _ => None).
Proof.
  intros C D W H1 H2 H3 H4. constructor.
  - split; assumption.
  - exact H4.
  - intros p. constructor.
  - intros p f m Hp. discriminate.
  - intros k f Hk Hf. cbn. apply H3. exists f. split; [reflexivity|]. intro Hin. apply has_char_In in Hin.
    rewrite (qp_noslash k f Hf) in Hin. discriminate.
  - intros f Hf _ Hn. exfalso. apply Hn. apply H3. exists f. split; [reflexivity|]. intro Hin. apply has_char_In in Hin. congruence.
  - intros k Hn. congruence.
Qed.

(** the operation leaves the keys [R] alone *)
Definition avoids (R : ustr -> Prop) (o : op) : Prop :=
  match o with
  | OSet k _ | ODel k => ~ R k
  | OClear => False
  | OUpdate d => Forall (fun kv => ~ R (fst kv)) d
  | OGet _ | OHas _ | OKeys | OItems | OLen => True
  end.
Lemma avoids_gop : forall R G i o k, avoids R o -> R k -> gop G (i, o) k = G k.
Proof.
  intros R G i o k H HR. unfold gop. destruct o as [k' v|k'|k'|k'| | | | |d]; cbn [avoids] in H; cbn [after_op]; try reflexivity.
  - destruct (ueq_dec k' k); [congruence|reflexivity].
  - destruct (ueq_dec k' k); [congruence|reflexivity].
  - destruct H.
  - generalize (G k). induction H as [|[k' v] d Hk Hd IH]; intro a; cbn [fold_left]; [reflexivity|].
    cbn [fst] in *. destruct (ueq_dec k' k); [congruence|]. apply IH.
Qed.

Lemma run_step : forall R C D h W P G, inv never C D W P G -> Forall (fun e => legal C (snd e)) h ->
  exists W' P' rs, run C W P h = (W', P', rs) /\ inv never C D W' P' (fun k => fold_left (after_op k) h (G k)) /\
    forall i, Forall (fun e => fst e = i \/ avoids R (snd e)) h -> own R (P i) G -> own R (P' i) (fun k => fold_left (after_op k) h (G k)).
Proof.
  induction h as [|[i o] h IH]; intros W P G H HL; cbn [run].
  - eexists _, _, _. split; [reflexivity|]. split; [exact H|]. auto.
  - inversion HL as [|? ? Ho HL']; subst. destruct (exec_step R C D W P G i o H Ho) as (W1 & S1 & r & -> & H1 & O1 & _).
    destruct (IH W1 (pset P i S1) _ H1 HL') as (W2 & P2 & rs & -> & H2 & O2).
    eexists _, _, _. split; [reflexivity|]. split; [exact H2|]. intros j Hj HO.
    inversion Hj as [|? ? Hij Hj']; subst. cbn [fst snd] in *. apply (O2 j Hj'). destruct (Nat.eq_dec j i) as [->|Hne].
    + rewrite pset_same. exact (O1 HO).
    + rewrite pset_other by auto. destruct Hij as [Hij|Hij]; [congruence|].
      intros f v Hf. destruct (HO f v Hf) as (k & H3 & H4 & H5). exists k. split; [exact H3|]. split; [exact H4|].
      intro HR. rewrite (avoids_gop R G i o k Hij HR). exact (H5 HR).
Qed.
Lemma latest_writer : forall R h i k a w v, Forall (fun e => fst e = i \/ avoids R (snd e)) h -> R k ->
  (forall w v, a = Some (w, v) -> w = i) -> fold_left (after_op k) h a = Some (w, v) -> w = i.
Proof.
  induction h as [|[j o] h IH]; intros i k a w v Hh HR Ha H; cbn [fold_left] in H; [exact (Ha w v H)|].
  apply Forall_cons_iff in Hh. destruct Hh as [Hj Hh']. cbn [fst snd] in *. refine (IH i k _ w v Hh' HR _ H).
  destruct Hj as [Hj|Hj]; [subst i|pose proof (avoids_gop R (fun _ => a) j o k Hj HR) as E; unfold gop in E; rewrite E; exact Ha].
  intros w' v' E. destruct o as [k0 v0|k0|k0|k0| | | | |l]; cbn [after_op] in E; try (exact (Ha _ _ E)); try discriminate.
  - destruct (ueq_dec k0 k); [congruence|exact (Ha _ _ E)].
  - destruct (ueq_dec k0 k); [discriminate|exact (Ha _ _ E)].
  - clear H. revert a Ha E. induction l as [|[k' x] l IHl]; intros a Ha E; cbn [fold_left] in E; [exact (Ha _ _ E)|].
    refine (IHl _ _ E). intros w1 v1 Ew. cbn [fst snd] in Ew. destruct (ueq_dec k' k); [congruence|exact (Ha _ _ Ew)].
Qed.

(** process [i] is the only one that changes the keys [R] *)
Theorem one_writer : forall R C D W i h o W' P' rs W'' S'' r,
  placed C W D -> flat W D -> no_files W D -> NoDup (map fst (w_files W)) ->
  Forall (fun e => legal C (snd e) /\ (fst e = i \/ avoids R (snd e))) h -> legal C o ->
  run C W (fun _ => s_new) h = (W', P', rs) -> exec C W' (P' i) o = (W'', S'', r) ->
  answers_on R (fun k => latest k h) o r.
Proof.
  intros R C D W i h o W' P' rs W'' S'' r H1 H2 H3 H4 Hh Ho Hrun Hex.
  assert (Ha : Forall (fun e => legal C (snd e)) h)
    by (apply Forall_forall; intros e He; rewrite Forall_forall in Hh; apply Hh in He; tauto).
  assert (Hb : Forall (fun e => fst e = i \/ avoids R (snd e)) h)
    by (apply Forall_forall; intros e He; rewrite Forall_forall in Hh; apply Hh in He; tauto).
  destruct (run_step R C D h W _ _ (inv_start C D W H1 H2 H3 H4) Ha) as (W1 & P1 & rs1 & E1 & I1 & O1).
  rewrite E1 in Hrun. injection Hrun as -> -> ->.
  destruct (exec_step R C D W' P' _ i o I1 Ho) as (W2 & S2 & r2 & E2 & _ & _ & A & _).
  rewrite E2 in Hex. injection Hex as -> -> ->. apply A.
  - apply O1; [exact Hb|]. intros f v Hf. discriminate.
  - intros k w v HR E. apply (latest_writer R h i k None w v Hb HR); [discriminate|exact E].
Qed.
Theorem one_process : forall C D W i h o W' P' rs W'' S'' r,
  placed C W D -> flat W D -> no_files W D -> NoDup (map fst (w_files W)) ->
  Forall (fun e => fst e = i /\ legal C (snd e)) h -> legal C o ->
  run C W (fun _ => s_new) h = (W', P', rs) -> exec C W' (P' i) o = (W'', S'', r) ->
  answers (fun k => latest k h) o r.
Proof.
  intros C D W i h o W' P' rs W'' S'' r H1 H2 H3 H4 Hh Ho Hrun Hex.
  assert (A : answers_on (fun _ => True) (fun k => latest k h) o r).
  { apply (one_writer (fun _ => True) C D W i h o W' P' rs W'' S'' r); auto.
    apply Forall_forall. intros e He. rewrite Forall_forall in Hh. apply Hh in He. tauto. }
  destruct o as [k0 v0|k0|k0|k0| | | | |l]; cbn [answers_on answers] in *; auto.
  - destruct A as (l & A1 & A2 & A3). exists l. repeat split; auto; apply A3; auto.
  - destruct A as (l & A1 & A2 & A3). exists l. repeat split; auto; apply A3; auto.
Qed.

Theorem many_processes : forall C D W i h k W' P' rs W'' S'' r,
  placed C W D -> flat W D -> no_files W D -> NoDup (map fst (w_files W)) ->
  Forall (fun e => legal C (snd e)) h -> plain_key k ->
  run C W (fun _ => s_new) h = (W', P', rs) -> exec C W' (P' i) (OGet k) = (W'', S'', RVal r) ->
  match latest k h with
  | None => r = Err EKeyError
  | Some (j, v) => (i = j -> r = Ok v) /\ (i <> j -> exists x, storable C v x /\ r = Ok x)
  end.
Proof.
  intros C D W i h k W' P' rs W'' S'' r H1 H2 H3 H4 Hh Ho Hrun Hex.
  destruct (run_step (fun _ => True) C D h W _ _ (inv_start C D W H1 H2 H3 H4) Hh) as (W1 & P1 & rs1 & E1 & I1 & O1).
  rewrite E1 in Hrun. injection Hrun as -> -> ->.
  destruct (exec_step (fun _ => True) C D W' P' _ i (OGet k) I1 Ho) as (W2 & S2 & r2 & E2 & _ & _ & _ & A).
  rewrite E2 in Hex. injection Hex as -> -> ->. specialize (A k eq_refl). unfold latest.
  destruct (fold_left (after_op k) h None) as [[j v]|]; [|congruence]. destruct A as [A1 A2]. split.
  - intro Hi. specialize (A1 Hi). congruence.
  - intro Hi. destruct (A2 Hi) as (x & Hx & Er). exists x. split; [exact Hx|]. congruence.
Qed.
