(** Restart, deletion, containment, interrupted and concurrent writes of the file storage. *)
From Coq Require Import List NArith ZArith Bool String Lia Arith.
From Verif Require Import Base.Ustr Base.UstrLemmas Base.Utf8 Base.Percent Base.PercentLemmas
  Model.Value Model.Converter Model.FileStore Spec.CodecSpec Spec.StorageSpec
  Proofs.ValueLemmas Proofs.CodecLemmas Proofs.StorageLemmas Proofs.StorageHistory.
Import ListNotations.
Open Scope list_scope.
Open Scope N_scope.

(** ** a new instance *)
(** what has been read is what is there *)
Definition known (C : conf) (D : ustr) (W : world) (S : st) : Prop :=
  forall f m, dget (s_fmtime S) f = Some m ->
    exists t x, dget (w_files W) (child D f) = Some (t, m) /\ lockname f = false /\
      content C t = Ok x /\ dget (s_storage S) f = Some x.
Definition same_plain (D : ustr) (W W' : world) : Prop :=
  forall g, lockname g = false -> dget (w_files W') (child D g) = dget (w_files W) (child D g).

Lemma known_same : forall C D W W' S, known C D W S -> same_plain D W W' -> known C D W' S.
Proof.
  intros C D W W' S H HW f m Hf. destruct (H f m Hf) as (t & x & H1 & H2 & H3). exists t, x. rewrite (HW f H2). auto.
Qed.
Lemma synch_file_known : forall C D W S f, ready C W D -> known C D W S -> has_char 47 f = false ->
  exists W' S', synch_file C W S f = (W', S', Ok tt) /\ ready C W' D /\ known C D W' S' /\ same_plain D W W'.
Proof.
  intros C D W S f HR HK Hf.
  assert (Triv : exists W' S', (W, S, Ok tt) = (W', S', @Ok unit tt) /\ ready C W' D /\ known C D W' S' /\ same_plain D W W').
  { exists W, S. split; [reflexivity|]. split; [exact HR|]. split; [exact HK|]. intros g _. reflexivity. }
  unfold synch_file. destruct (usable_dec f Hf) as [Hu|Hu].
  - rewrite (file_at_ready C W D f HR Hu). destruct (dget (w_files W) (child D f)) as [[t m]|] eqn:E; [|exact Triv].
    change (endswith (u ".lock") f) with (lockname f). destruct (lockname f) eqn:Hl; [exact Triv|].
    assert (Hsame : same_plain D W (locked D W f)) by (intros g Hg; apply files_locked; exact Hg).
    destruct (dhas (s_fmtime S) f) eqn:Hh.
    + apply dhas_true in Hh. destruct Hh as [m' Hm]. destruct (HK f m' Hm) as (t' & x & E' & _).
      assert (m' = m) by congruence. subst m'. unfold is_changed.
      rewrite (file_at_ready C W D f HR Hu), E, Hm, N.ltb_irrefl. exact Triv.
    + rewrite (read_ready C W D f t m HR Hu Hl E). destruct (content C t) as [x|e] eqn:Ex.
      * eexists _, _. split; [reflexivity|]. split; [apply ready_put; exact HR|]. split; [|exact Hsame].
        intros g m' Hg. cbn [seen cache s_fmtime] in Hg. rewrite dget_dset in Hg. destruct (ueqb g f) eqn:Eg.
        -- apply ueqb_eq in Eg. subst g. injection Hg as <-. exists t, x. rewrite (Hsame f Hl).
           rewrite storage_seen, ueqb_refl. auto.
        -- destruct (HK g m' Hg) as (t' & x' & H1 & H2 & H3 & H4). exists t', x'. rewrite (Hsame g H2).
           rewrite storage_seen, Eg. auto.
      * eexists _, _. split; [reflexivity|]. split; [apply ready_put; exact HR|]. split; [|exact Hsame].
        exact (known_same C D W _ S HK Hsame).
  - unfold file_at. rewrite (locate_unusable C W D f HR Hf Hu). exact Triv.
Qed.
Lemma synch_files_known : forall C D l W S, ready C W D -> known C D W S -> Forall (fun f => has_char 47 f = false) l ->
  exists W' S', synch_files C W S l = (W', S', Ok tt) /\ ready C W' D /\ known C D W' S' /\ same_plain D W W'.
Proof.
  induction l as [|f l IH]; intros W S HR HK Hl; cbn [synch_files].
  - exists W, S. split; [reflexivity|]. split; [exact HR|]. split; [exact HK|]. intros g _. reflexivity.
  - inversion Hl as [|? ? Hf Hl']; subst.
    destruct (synch_file_known C D W S f HR HK Hf) as (W1 & S1 & -> & R1 & K1 & F1).
    destruct (IH W1 S1 R1 K1 Hl') as (W2 & S2 & -> & R2 & K2 & F2).
    exists W2, S2. split; [reflexivity|]. split; [exact R2|]. split; [exact K2|].
    intros g Hg. rewrite (F2 g Hg). apply F1, Hg.
Qed.
Lemma new_known : forall C D W, ready C W D ->
  exists W' S', new C W = (W', S', Ok tt) /\ ready C W' D /\ known C D W' S' /\ same_plain D W W'.
Proof.
  intros C D W HR. unfold new, synch. rewrite (listdir_ready C W D HR). apply synch_files_known; [exact HR| |].
  - intros f m Hf. discriminate.
  - apply Forall_forall. intros f Hf. apply file_names_in in Hf. tauto.
Qed.
Lemma getitem_known : forall C D W S k f, ready C W D -> known C D W S -> plain_key k -> qpkey_serialize k = Ok f ->
  snd (getitem C W S k) = match dget (w_files W) (child D f) with Some (t, _) => content C t | None => Err EKeyError end.
Proof.
  intros C D W S k f HR HK Hk Hq. destruct (plain_name k Hk) as (f' & Hq' & Hu & Hl).
  assert (f' = f) by congruence. subst f'. unfold getitem. rewrite Hq.
  destruct (dget (w_files W) (child D f)) as [[t m]|] eqn:E.
  - destruct (is_changed_ready C W D S f t m HR Hu E) as [[Hfr ->]|[Hfr ->]].
    + unfold fresh in Hfr. destruct (dget (s_fmtime S) f) as [m'|] eqn:Em; [|destruct Hfr].
      destruct (HK f m' Em) as (t' & x & H1 & _ & H3 & H4). rewrite H1 in E. injection E as -> ->. rewrite H4, H3. reflexivity.
    + rewrite (read_ready C W D f t m HR Hu Hl E). destruct (content C t) as [x|e]; [|reflexivity].
      cbn. rewrite dget_dset_same. reflexivity.
  - unfold is_changed. rewrite (file_at_ready C W D f HR Hu), E. reflexivity.
Qed.
Lemma reading_ready : forall C D W k f, ready C W D -> plain_key k -> qpkey_serialize k = Ok f ->
  reading C W k = match dget (w_files W) (child D f) with Some (t, _) => content C t | None => Err EKeyError end.
Proof.
  intros C D W k f HR Hk Hq. unfold reading. destruct (new_known C D W HR) as (W' & S' & -> & R' & K' & F').
  rewrite (getitem_known C D W' S' k f R' K' Hk Hq). rewrite F'; [reflexivity|].
  destruct (plain_name k Hk) as (f' & Hq' & _ & Hl). congruence.
Qed.

Lemma restart : forall C D W S k v t W' S', placed C W D -> flat W D -> plain_key k -> c_ser C v = Ok t -> encodable t ->
  set C W S k v = (W', S', Ok tt) ->
  reading C W' k = c_deser C (strip (newlines t)) /\
  forall k2, plain_key k2 -> k2 <> k -> reading C W' k2 = reading C W k2.
Proof.
  intros C D W S k v t W' S' H1 H2 Hk Hs He Hset. assert (HR : ready C W D) by (split; assumption).
  destruct (plain_name k Hk) as (f & Hq & Hu & Hl). rewrite (set_ready C W D S k f v t HR Hq Hu Hs He) in Hset.
  injection Hset as <- _. assert (HR' : ready C (written D W f t) D) by (apply ready_put, ready_put; exact HR). split.
  - rewrite (reading_ready C D _ k f HR' Hk Hq), (files_written D W f t f Hl), ueqb_refl. reflexivity.
  - intros k2 Hk2 Hne. destruct (plain_name k2 Hk2) as (f2 & Hq2 & _ & Hl2).
    rewrite (reading_ready C D _ k2 f2 HR' Hk2 Hq2), (reading_ready C D W k2 f2 HR Hk2 Hq2), (files_written D W f t f2 Hl2).
    destruct (ueqb f2 f) eqn:E; [|reflexivity]. apply ueqb_eq in E. subst f2. exfalso. apply Hne. exact (qp_inj k2 k f Hq2 Hq).
Qed.
Lemma set_succeeds : forall C D W S k v t, placed C W D -> flat W D -> plain_key k -> c_ser C v = Ok t -> encodable t ->
  snd (set C W S k v) = Ok tt.
Proof.
  intros C D W S k v t H1 H2 Hk Hs He. destruct (plain_name k Hk) as (f & Hq & Hu & Hl).
  rewrite (set_ready C W D S k f v t (conj H1 H2) Hq Hu Hs He). reflexivity.
Qed.
Lemma newlines_none : forall s, ~ In 13 s -> newlines s = s.
Proof.
  induction s as [|c s IH]; intro H; [reflexivity|]. cbn [newlines]. destruct (N.eqb_spec c 13) as [->|Hc].
  - exfalso. apply H. left. reflexivity.
  - f_equal. apply IH. intro. apply H. right. assumption.
Qed.

Theorem restart_total : forall C D W S k v t, placed C W D -> flat W D -> plain_key k -> c_ser C v = Ok t -> encodable t ->
  exists W' S', set C W S k v = (W', S', Ok tt) /\
    reading C W' k = c_deser C (strip (newlines t)) /\
    forall k2, plain_key k2 -> k2 <> k -> reading C W' k2 = reading C W k2.
Proof.
  intros C D W S k v t H1 H2 Hk Hs He. pose proof (set_succeeds C D W S k v t H1 H2 Hk Hs He) as E.
  destruct (set C W S k v) as [[W' S'] r] eqn:Es. cbn [snd] in E. subst r. exists W', S'. split; [reflexivity|].
  exact (restart C D W S k v t W' S' H1 H2 Hk Hs He Es).
Qed.
Theorem restart_plain : forall C D W S k v t, placed C W D -> flat W D -> plain_key k -> c_ser C v = Ok t -> encodable t ->
  ~ In 13 t ->
  exists W' S', set C W S k v = (W', S', Ok tt) /\ reading C W' k = c_deser C (strip t) /\
    forall k2, plain_key k2 -> k2 <> k -> reading C W' k2 = reading C W k2.
Proof.
  intros C D W S k v t H1 H2 Hk Hs He Hn. pose proof (restart_total C D W S k v t H1 H2 Hk Hs He) as R. rewrite (newlines_none t Hn) in R. exact R.
Qed.
Theorem other_keys : forall C D W S k v t k2, placed C W D -> flat W D -> plain_key k -> c_ser C v = Ok t -> encodable t ->
  plain_key k2 -> k2 <> k -> reading C (fst (fst (set C W S k v))) k2 = reading C W k2.
Proof.
  intros C D W S k v t k2 H1 H2 Hk Hs He Hk2 Hne. destruct (restart_total C D W S k v t H1 H2 Hk Hs He) as (W' & S' & -> & _ & H).
  exact (H k2 Hk2 Hne).
Qed.

(** ** deleting *)
Lemma del_gone : forall C D W S k W' S' r, placed C W D -> flat W D -> plain_key k -> own_name k ->
  del C W S k = (W', S', r) -> r = Ok tt /\ contains S' k = Ok false /\ snd (getitem C W' S' k) = Err EKeyError.
Proof.
  intros C D W S k W' S' r H1 H2 Hk Hn H. assert (HR : ready C W D) by (split; assumption).
  pose proof (own_name_qp k Hn) as Hq. destruct (plain_name k Hk) as (f & Hq' & Hu & Hl).
  assert (f = k) by congruence. subst f. rewrite (del_ready C W D S k HR Hu) in H. injection H as <- <- <-.
  split; [reflexivity|]. split.
  - unfold contains. rewrite Hq. cbn [bind]. f_equal. apply dhas_false. cbn. rewrite dget_ddel, ueqb_refl. reflexivity.
  - assert (HF : forall W0, ready C W0 D -> dget (w_files W0) (child D k) = None ->
      snd (getitem C W0 (forget S k) k) = Err EKeyError).
    { intros W0 HR0 E. unfold getitem. rewrite Hq. unfold is_changed. rewrite (file_at_ready C W0 D k HR0 Hu), E. reflexivity. }
    destruct (dget (w_files W) (child D k)) eqn:E; [|exact (HF W HR E)]. apply HF.
    + eapply ready_same; [exact HR|reflexivity|reflexivity].
    + rewrite (files_removed D W k k Hl), ueqb_refl. reflexivity.
Qed.

(** ** files outside the directory *)
Definition outside (D : ustr) (W W' : world) : Prop :=
  w_dirs W' = w_dirs W /\ w_cwd W' = w_cwd W /\ forall p, ~ inside D p -> dget (w_files W') p = dget (w_files W) p.
Lemma outside_refl : forall D W, outside D W W.
Proof. intros. split; [|split]; reflexivity. Qed.
Lemma outside_trans : forall D W1 W2 W3, outside D W1 W2 -> outside D W2 W3 -> outside D W1 W3.
Proof.
  intros D W1 W2 W3 (A1 & A2 & A3) (B1 & B2 & B3). split; [congruence|]. split; [congruence|].
  intros p Hp. rewrite (B3 p Hp). auto.
Qed.
Lemma outside_placed : forall C D W W', placed C W D -> outside D W W' -> placed C W' D.
Proof. intros C D W W' [H1 H2] (A1 & A2 & _). split; [exact H1|]. unfold dir_at, start in *. rewrite A1, A2. exact H2. Qed.
Lemma inside_child : forall D f, has_char 47 f = false -> inside D (child D f).
Proof. intros D f H. exists f. split; [reflexivity|]. intro Hin. apply has_char_In in Hin. congruence. Qed.
Lemma outside_put : forall D W f x, has_char 47 f = false -> outside D W (put W (child D f) x).
Proof.
  intros D W f x H. split; [reflexivity|]. split; [reflexivity|]. intros p Hp. cbn. apply dget_dset_other.
  intros ->. exact (Hp (inside_child D f H)).
Qed.
Lemma locate_placed : forall C D W f p, placed C W D -> has_char 47 f = false ->
  locate W (path_join (c_fdir C) f) = Some p -> p = child D f.
Proof. intros C D W f p H Hf E. rewrite (locate_join C W D f H Hf) in E. destruct (_ || _); congruence. Qed.
Lemma outside_open : forall C D W f W', placed C W D -> has_char 47 f = false ->
  open_w W (path_join (c_fdir C) f) = Ok W' -> outside D W W'.
Proof.
  intros C D W f W' H Hf E. unfold open_w in E. destruct (locate W _) as [p|] eqn:El; [|discriminate].
  injection E as <-. rewrite (locate_placed C D W f p H Hf El). apply outside_put, Hf.
Qed.
Lemma outside_lock : forall C D W f W', placed C W D -> has_char 47 f = false ->
  lock W (path_join (c_fdir C) f) = Ok W' -> outside D W W'.
Proof.
  intros C D W f W' H Hf E. unfold lock in E. rewrite path_join_app in E by (auto; reflexivity).
  exact (outside_open C D W _ W' H (lock_noslash f Hf) E).
Qed.
Lemma outside_write : forall C D W f t W', placed C W D -> has_char 47 f = false ->
  write W (path_join (c_fdir C) f) t = Ok W' -> outside D W W'.
Proof.
  intros C D W f t W' H Hf E. unfold write in E. destruct (utf8_encode t); [|discriminate].
  destruct (locate W _) as [p|] eqn:El; [|discriminate].
  injection E as <-. rewrite (locate_placed C D W f p H Hf El). apply outside_put, Hf.
Qed.
Lemma outside_unlink : forall C D W f, placed C W D -> has_char 47 f = false ->
  outside D W (unlink W (path_join (c_fdir C) f)).
Proof.
  intros C D W f H Hf. unfold unlink. destruct (locate W _) as [p|] eqn:El; [|apply outside_refl].
  rewrite (locate_placed C D W f p H Hf El). split; [reflexivity|]. split; [reflexivity|].
  intros q Hq. cbn. rewrite dget_ddel. destruct (ueqb q (child D f)) eqn:E; [|reflexivity].
  apply ueqb_eq in E. subst. exfalso. exact (Hq (inside_child D f Hf)).
Qed.
Lemma outside_set : forall C D W S k v, placed C W D -> outside D W (fst (fst (set C W S k v))).
Proof.
  intros C D W S k v H. unfold set. destruct (qpkey_serialize k) as [f|] eqn:Hq; [|apply outside_refl].
  pose proof (qp_noslash k f Hq) as Hf. unfold set_open.
  destruct (lock W _) as [W1|] eqn:E1; [|apply outside_refl]. pose proof (outside_lock C D W f W1 H Hf E1) as O1.
  destruct (open_w W1 _) as [W2|] eqn:E2; [|exact O1].
  pose proof (outside_trans _ _ _ _ O1 (outside_open C D W1 f W2 (outside_placed _ _ _ _ H O1) Hf E2)) as O2.
  unfold set_write. destruct (c_ser C v) as [t|]; [|exact O2].
  destruct (write W2 _ t) as [W3|] eqn:E3; [|exact O2].
  pose proof (outside_trans _ _ _ _ O2 (outside_write C D W2 f t W3 (outside_placed _ _ _ _ H O2) Hf E3)) as O3.
  destruct (set_stat C W3 _ f). exact O3.
Qed.
Lemma outside_del : forall C D W S f, placed C W D -> has_char 47 f = false -> outside D W (fst (fst (del C W S f))).
Proof.
  intros C D W S f H Hf. unfold del. destruct (isfile W _); [|apply outside_refl].
  destruct (lock W _) as [W1|] eqn:E1; [|apply outside_refl]. pose proof (outside_lock C D W f W1 H Hf E1) as O1.
  cbn. exact (outside_trans _ _ _ _ O1 (outside_unlink C D W1 f (outside_placed _ _ _ _ H O1) Hf)).
Qed.
Lemma outside_read : forall C D W f, placed C W D -> has_char 47 f = false -> outside D W (fst (read_info C W f)).
Proof.
  intros C D W f H Hf. unfold read_info. destruct (isfile W _); [|apply outside_refl].
  destruct (lock W _) as [W1|] eqn:E1; [|apply outside_refl]. pose proof (outside_lock C D W f W1 H Hf E1) as O1.
  destruct (file_at W1 _) as [[t m]|]; exact O1.
Qed.
Lemma outside_getitem : forall C D W S k, placed C W D -> outside D W (fst (fst (getitem C W S k))).
Proof.
  intros C D W S k H. unfold getitem. destruct (qpkey_serialize k) as [f|] eqn:Hq; [|apply outside_refl].
  destruct (is_changed C W S f) as [S1 [[]|]]; try apply outside_refl.
  pose proof (outside_read C D W f H (qp_noslash k f Hq)) as O. destruct (read_info C W f) as [W1 [v|]]; exact O.
Qed.
Lemma outside_synch_file : forall C D W S f, placed C W D -> has_char 47 f = false -> outside D W (fst (fst (synch_file C W S f))).
Proof.
  intros C D W S f H Hf. unfold synch_file. destruct (file_at W _) as [[t m]|]; [|apply outside_refl].
  destruct (endswith _ f); [apply outside_refl|]. pose proof (outside_read C D W f H Hf) as O.
  destruct (dhas _ f).
  - destruct (is_changed C W S f) as [S1 [[]|]]; try apply outside_refl. destruct (read_info C W f) as [W1 [v|]]; exact O.
  - destruct (read_info C W f) as [W1 [v|]]; exact O.
Qed.
Lemma outside_synch_files : forall C D l W S, placed C W D -> Forall (fun f => has_char 47 f = false) l ->
  outside D W (fst (fst (synch_files C W S l))).
Proof.
  induction l as [|f l IH]; intros W S H Hl; cbn [synch_files]; [apply outside_refl|].
  inversion Hl as [|? ? Hf Hl']; subst. pose proof (outside_synch_file C D W S f H Hf) as O.
  destruct (synch_file C W S f) as [[W1 S1] [x|]]; [|exact O]. cbn [fst] in O.
  exact (outside_trans _ _ _ _ O (IH W1 S1 (outside_placed _ _ _ _ H O) Hl')).
Qed.
Lemma outside_synch : forall C D W S, placed C W D -> outside D W (fst (fst (synch C W S))).
Proof.
  intros C D W S H. unfold synch, listdir. rewrite (proj2 H). apply outside_synch_files; [exact H|].
  apply Forall_forall. intros f Hf. apply file_names_in in Hf. tauto.
Qed.
Lemma outside_del_all : forall C D l W S, placed C W D -> Forall (fun f => has_char 47 f = false) l ->
  outside D W (fst (fst (del_all C W S l))).
Proof.
  induction l as [|f l IH]; intros W S H Hl; cbn [del_all]; [apply outside_refl|].
  inversion Hl as [|? ? Hf Hl']; subst. pose proof (outside_del C D W S f H Hf) as O.
  destruct (del C W S f) as [[W1 S1] [x|]]; [|exact O]. cbn [fst] in O.
  exact (outside_trans _ _ _ _ O (IH W1 S1 (outside_placed _ _ _ _ H O) Hl')).
Qed.
Lemma outside_update : forall C D l W S, placed C W D -> outside D W (fst (fst (update C W S l))).
Proof.
  induction l as [|[k v] l IH]; intros W S H; cbn [update]; [apply outside_refl|].
  pose proof (outside_set C D W S k v H) as O. destruct (set C W S k v) as [[W1 S1] [x|]]; [|exact O]. cbn [fst] in O.
  exact (outside_trans _ _ _ _ O (IH W1 S1 (outside_placed _ _ _ _ H O))).
Qed.
Lemma outside_items : forall C D W S, placed C W D -> outside D W (fst (fst (items C W S))).
Proof.
  intros C D W S H. pose proof (outside_synch C D W S H) as O. unfold items. destruct (synch C W S) as [[W1 S1] [x|]]; exact O.
Qed.
Lemma outside_exec : forall C D W S o, placed C W D -> tame o -> outside D W (fst (fst (exec C W S o))).
Proof.
  intros C D W S o H Ht. assert (O0 : outside D W (tick W)) by (split; [|split]; reflexivity).
  pose proof (outside_placed _ _ _ _ H O0) as H'.
  assert (G : forall W', outside D (tick W) W' -> outside D W W') by (intros W0 HW0; exact (outside_trans D W (tick W) W0 O0 HW0)).
  destruct o as [k v|k|k|k| | | | |d]; cbn [exec].
  - pose proof (outside_set C D (tick W) S k v H'). destruct (set _ _ _ _ _) as [[? ?] ?]. apply G. assumption.
  - pose proof (outside_getitem C D (tick W) S k H'). destruct (getitem _ _ _ _) as [[? ?] ?]. apply G. assumption.
  - assert (Hk : has_char 47 k = false) by (apply not_true_is_false; rewrite has_char_In; exact Ht).
    pose proof (outside_del C D (tick W) S k H' Hk). destruct (del _ _ _ _) as [[? ?] ?]. apply G. assumption.
  - exact O0.
  - pose proof (outside_items C D (tick W) S H'). unfold keys. destruct (items _ _ _) as [[? ?] [?|?]]; apply G; assumption.
  - pose proof (outside_items C D (tick W) S H'). destruct (items _ _ _) as [[? ?] ?]. apply G. assumption.
  - exact O0.
  - assert (O : outside D (tick W) (fst (fst (clear C (tick W) S)))).
    { unfold clear, listdir. rewrite (proj2 H'). apply outside_del_all; [exact H'|].
      apply Forall_forall. intros f Hf. apply file_names_in in Hf. tauto. }
    destruct (clear _ _ _) as [[? ?] ?]. apply G. assumption.
  - pose proof (outside_update C D d (tick W) S H'). destruct (update _ _ _ _) as [[? ?] ?]. apply G. assumption.
Qed.
Theorem outside_run : forall C D h W P W' P' rs, placed C W D -> Forall (fun e => tame (snd e)) h ->
  run C W P h = (W', P', rs) -> forall p, ~ inside D p -> dget (w_files W') p = dget (w_files W) p.
Proof.
  intros C D h W P W' P' rs H Hh E. enough (O : outside D W W') by apply O. revert W P W' P' rs H E.
  induction h as [|[i o] h IH]; intros W P W' P' rs H E; cbn [run] in E.
  - injection E as <- _ _. apply outside_refl.
  - apply Forall_cons_iff in Hh. destruct Hh as [Ho Hh]. pose proof (outside_exec C D W (P i) o H Ho) as O.
    destruct (exec C W (P i) o) as [[W1 S1] r]. cbn [fst] in O.
    destruct (run C W1 (pset P i S1) h) as [[W2 P2] rs2] eqn:E2. injection E as <- _ _.
    exact (outside_trans _ _ _ _ O (IH Hh W1 _ W2 P2 rs2 (outside_placed _ _ _ _ H O) E2)).
Qed.

(** ** interrupted writes *)
Lemma cut : forall C D W k f v t n, placed C W D -> flat W D -> plain_key k -> qpkey_serialize k = Ok f ->
  c_ser C v = Ok t -> encodable t -> n <> 1%nat ->
  reading C (set_cut n C W f v) k = reading C W k \/ reading C (set_cut n C W f v) k = c_deser C (strip (newlines t)).
Proof.
  intros C D W k f v t n H1 H2 Hk Hq Hs He Hn. assert (HR : ready C W D) by (split; assumption).
  destruct (plain_name k Hk) as (f' & Hq' & Hu & Hl). assert (f' = f) by congruence. subst f'.
  destruct n as [|[|n]]; [left; reflexivity|congruence|]. right. cbn [set_cut].
  rewrite (set_open_ready C W D f HR Hu). cbn [fst].
  assert (HR1 : ready C (written D W f []) D) by (apply ready_put, ready_put; exact HR).
  rewrite (set_write_ready C _ D f v t HR1 Hu Hs He). cbn [fst].
  rewrite (reading_ready C D _ k f (ready_put _ _ _ _ _ HR1) Hk Hq). cbn [put w_files]. rewrite dget_dset_same. reflexivity.
Qed.
Theorem interrupted : forall C D W S k f v t n, placed C W D -> flat W D -> plain_key k -> qpkey_serialize k = Ok f ->
  c_ser C v = Ok t -> encodable t ->
  (n <> 1%nat -> reading C (set_cut n C W f v) k = reading C W k \/
                 reading C (set_cut n C W f v) k = c_deser C (strip (newlines t))) /\
  forall k' e, qpkey_serialize k' = Err e -> set C W S k' v = (W, S, Err e).
Proof.
  intros C D W S k f v t n H1 H2 Hk Hq Hs He. split; [exact (cut C D W k f v t n H1 H2 Hk Hq Hs He)|].
  intros k' e E. unfold set. rewrite E. reflexivity.
Qed.

(** ** a failed first read *)
Lemma failed_first : forall C D W S k f W' S' e, placed C W D -> flat W D -> plain_key k -> qpkey_serialize k = Ok f ->
  dget (s_storage S) f = None -> getitem C W S k = (W', S', Err e) ->
  exists e', snd (getitem C W' S' k) = Err e'.
Proof.
  intros C D W S k f W' S' e H1 H2 Hk Hq Hn H. assert (HR : ready C W D) by (split; assumption).
  destruct (plain_name k Hk) as (f' & Hq' & Hu & Hl). assert (f' = f) by congruence. subst f'.
  assert (HS : ready C W' D /\ dget (s_storage S') f = None /\ (forall t m, dget (w_files W') (child D f) = Some (t, m) -> fresh S' f m)).
  { unfold getitem in H. rewrite Hq in H. destruct (dget (w_files W) (child D f)) as [[t m]|] eqn:E.
    - destruct (is_changed_ready C W D S f t m HR Hu E) as [[Hfr Hc]|[Hfr Hc]]; rewrite Hc in H.
      + injection H as <- <- _. split; [exact HR|]. split; [exact Hn|]. intros t' m' E'. congruence.
      + rewrite (read_ready C W D f t m HR Hu Hl E) in H. destruct (content C t) as [x|].
        * cbn [cache s_storage] in H. rewrite dget_dset_same in H. discriminate.
        * injection H as <- <- _. split; [apply ready_put; exact HR|]. split; [exact Hn|].
          intros t' m' E'. rewrite (files_locked D W f f Hl), E in E'. injection E' as <- <-.
          unfold fresh. cbn [seen s_fmtime]. rewrite dget_dset_same. lia.
    - unfold is_changed in H. rewrite (file_at_ready C W D f HR Hu), E in H. injection H as <- <- _.
      split; [exact HR|]. split; [exact Hn|]. congruence. }
  destruct HS as (HR' & Hn' & Hfr'). unfold getitem. rewrite Hq.
  destruct (dget (w_files W') (child D f)) as [[t m]|] eqn:E.
  - destruct (is_changed_ready C W' D S' f t m HR' Hu E) as [[_ ->]|[Hx ->]]; [|exfalso; exact (Hx (Hfr' t m eq_refl))].
    rewrite Hn'. eexists. reflexivity.
  - unfold is_changed. rewrite (file_at_ready C W' D f HR' Hu), E. eexists. reflexivity.
Qed.
