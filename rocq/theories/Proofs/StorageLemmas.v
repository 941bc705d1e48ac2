(** Lemmas on the file system model and the operations of AbstractFileSystem. *)
From Coq Require Import List NArith ZArith Bool String Lia Arith.
From Verif Require Import Base.Ustr Base.UstrLemmas Base.Utf8 Base.Utf8Lemmas Base.Percent Base.PercentLemmas
  Model.Value Model.Converter Model.FileStore Spec.CodecSpec Spec.StorageSpec
  Proofs.ValueLemmas Proofs.CodecLemmas.
Import ListNotations.
Open Scope list_scope.
Open Scope N_scope.

(** ** paths *)
Lemma split_on_snoc : forall c a b, split_on c (a ++ c :: b) = split_on c a ++ split_on c b.
Proof.
  induction a as [|x a IH]; intro b; cbn [split_on app].
  - rewrite N.eqb_refl. reflexivity.
  - destruct (x =? c); [rewrite IH; reflexivity|]. rewrite IH.
    destruct (split_on c a) eqn:E; [exfalso; exact (split_on_nonempty _ _ E)|]. reflexivity.
Qed.
Lemma walk_app : forall dirs a cur b,
  walk dirs cur (a ++ b) = match walk dirs cur a with Some d => walk dirs d b | None => None end.
Proof.
  induction a as [|n a IH]; intros cur b; cbn [walk app]; [reflexivity|].
  destruct (dot n); [apply IH|]. destruct (dotdot n); [apply IH|]. destruct (umem _ _); [apply IH|reflexivity].
Qed.
Lemma startswith_slash : forall s, startswith (u "/") s = match s with c :: _ => 47 =? c | [] => false end.
Proof. intros [|c s]; [reflexivity|]. change (u "/") with [47]. cbn [startswith]. destruct s; apply andb_true_r. Qed.
Lemma noslash_start : forall f, has_char 47 f = false -> startswith (u "/") f = false.
Proof. intros f H. rewrite startswith_slash. destruct f; [reflexivity|]. cbn in H. apply orb_false_iff in H. tauto. Qed.

Lemma path_join_form : forall d f, has_char 47 f = false -> d <> [] ->
  exists d', path_join d f = d' ++ 47 :: f /\ (d = d' ++ [47] \/ d = d').
Proof.
  intros d f H Hd. unfold path_join. rewrite (noslash_start f H). destruct d as [|x d]; [congruence|].
  destruct (endswith (u "/") (x :: d)) eqn:E.
  - apply endswith_iff in E. destruct E as [r E]. rewrite E. change (u "/") with [47].
    exists r. rewrite <- app_assoc. auto.
  - exists (x :: d). auto.
Qed.

Lemma locate_join : forall C W D f, placed C W D -> has_char 47 f = false ->
  locate W (path_join (c_fdir C) f) =
  if dot f || dotdot f || umem (child D f) (w_dirs W) then None else Some (child D f).
Proof.
  intros C W D f [Hd Hdir] Hf. destruct (path_join_form (c_fdir C) f Hf Hd) as (d' & -> & Hd').
  unfold locate. rewrite split_on_snoc, (split_on_none 47 f Hf), removelast_last, last_last.
  assert (Hst : walk (w_dirs W) (start W (d' ++ 47 :: f)) (split_on 47 d') = Some D).
  { destruct Hd' as [E|E]; rewrite E in Hdir; unfold dir_at in Hdir.
    - rewrite split_on_snoc in Hdir. change (split_on 47 []) with [@nil N] in Hdir. rewrite walk_app in Hdir.
      assert (Es : start W (d' ++ 47 :: f) = start W (d' ++ [47])).
      { unfold start. rewrite !startswith_slash. destruct d'; reflexivity. }
      rewrite Es. destruct (walk _ _ (split_on 47 d')) as [d|]; [|discriminate].
      cbn in Hdir. exact Hdir.
    - assert (Es : start W (d' ++ 47 :: f) = start W d').
      { unfold start. rewrite !startswith_slash. destruct d'; [|reflexivity]. congruence. }
      rewrite Es. exact Hdir. }
  rewrite Hst. reflexivity.
Qed.

Lemma path_join_app : forall d f s, has_char 47 f = false -> has_char 47 s = false ->
  path_join d f ++ s = path_join d (f ++ s).
Proof.
  intros d f s Hf Hs. unfold path_join. rewrite (noslash_start f Hf).
  assert (H : has_char 47 (f ++ s) = false) by (rewrite has_char_app, Hf; exact Hs).
  rewrite (noslash_start _ H). destruct d; [reflexivity|].
  destruct (endswith (u "/") _); rewrite <- ?app_assoc; reflexivity.
Qed.

Lemma child_inj : forall D f g, child D f = child D g -> f = g.
Proof. intros D f g H. apply app_inv_head in H. congruence. Qed.
Lemma child_ueqb : forall D f g, ueqb (child D f) (child D g) = ueqb f g.
Proof.
  intros. destruct (ueqb f g) eqn:E.
  - apply ueqb_eq in E. subst. apply ueqb_refl.
  - destruct (ueqb (child D f) (child D g)) eqn:E'; [|reflexivity]. apply ueqb_eq, child_inj in E'. subst.
    rewrite ueqb_refl in E. discriminate.
Qed.

(** ** names *)
Definition lockname (f : ustr) : bool := endswith (u ".lock") f.
(** a name the storage can use *)
Definition usable (f : ustr) : Prop := has_char 47 f = false /\ dot f = false /\ dotdot f = false.

Lemma lock_noslash : forall f, has_char 47 f = false -> has_char 47 (f ++ u ".lock") = false.
Proof. intros f H. rewrite has_char_app, H. reflexivity. Qed.
Lemma lock_usable : forall f, has_char 47 f = false -> usable (f ++ u ".lock").
Proof.
  intros f H. split; [apply lock_noslash; exact H|]. split.
  - destruct f as [|a [|b f]]; [reflexivity| |].
    + unfold dot. cbn. rewrite andb_false_r. reflexivity.
    + unfold dot. cbn. destruct (a =? 46); reflexivity.
  - destruct f as [|a [|b f]]; unfold dotdot; [reflexivity| |].
    + cbn. destruct (a =? 46); reflexivity.
    + change ((a :: b :: f) ++ u ".lock") with (a :: b :: (f ++ u ".lock")). cbn [ueqb].
      destruct (f ++ u ".lock") eqn:E; [destruct f; discriminate|]. rewrite !andb_false_r. reflexivity.
Qed.
Lemma lockname_lock : forall f, lockname (f ++ u ".lock") = true.
Proof. intro f. apply endswith_iff. eauto. Qed.
Lemma lock_ne : forall f g, lockname f = false -> ueqb f (g ++ u ".lock") = false.
Proof.
  intros f g H. destruct (ueqb f _) eqn:E; [|reflexivity]. apply ueqb_eq in E. subst. rewrite lockname_lock in H. discriminate.
Qed.

(** ** a directory without subdirectories *)
Definition ready (C : conf) (W : world) (D : ustr) : Prop := placed C W D /\ flat W D.

Lemma ready_same : forall C W W' D, ready C W D -> w_dirs W' = w_dirs W -> w_cwd W' = w_cwd W -> ready C W' D.
Proof.
  intros C W W' D [[H1 H2] H3] Hd Hc. unfold ready, placed, flat, dir_at, start in *. rewrite Hd, Hc. auto.
Qed.
Lemma ready_put : forall C W D p x, ready C W D -> ready C (put W p x) D.
Proof. intros. eapply ready_same; [eassumption|reflexivity|reflexivity]. Qed.
Lemma ready_tick : forall C W D, ready C W D -> ready C (tick W) D.
Proof. intros. eapply ready_same; [eassumption|reflexivity|reflexivity]. Qed.

Lemma locate_ready : forall C W D f, ready C W D -> usable f -> locate W (path_join (c_fdir C) f) = Some (child D f).
Proof.
  intros C W D f [Hp Hfl] (H1 & H2 & H3). rewrite (locate_join C W D f Hp H1), H2, H3. cbn [orb].
  replace (umem (child D f) (w_dirs W)) with false; [reflexivity|]. symmetry. apply umem_not_In. apply (Hfl f).
Qed.
Lemma locate_unusable : forall C W D f, ready C W D -> has_char 47 f = false -> dot f || dotdot f = true ->
  locate W (path_join (c_fdir C) f) = None.
Proof. intros C W D f [Hp Hfl] H1 H2. rewrite (locate_join C W D f Hp H1), H2. reflexivity. Qed.

Lemma file_at_ready : forall C W D f, ready C W D -> usable f ->
  file_at W (path_join (c_fdir C) f) = dget (w_files W) (child D f).
Proof. intros. unfold file_at. rewrite (locate_ready C W D f); auto. Qed.

Definition locked (D : ustr) (W : world) (f : ustr) : world := put W (child D (f ++ u ".lock")) ([], w_clock W).
Lemma lock_ready : forall C W D f, ready C W D -> has_char 47 f = false ->
  lock W (path_join (c_fdir C) f) = Ok (locked D W f).
Proof.
  intros C W D f H Hf. unfold lock. rewrite path_join_app by (auto; reflexivity).
  unfold open_w. rewrite (locate_ready C W D); auto using lock_usable.
Qed.
Lemma files_locked : forall D W f g, lockname g = false ->
  dget (w_files (locked D W f)) (child D g) = dget (w_files W) (child D g).
Proof. intros D W f g H. cbn. rewrite dget_dset, child_ueqb, (lock_ne g f H). reflexivity. Qed.

(** ** the operations in a ready world *)
Definition written (D : ustr) (W : world) (f t : ustr) : world := put (locked D W f) (child D f) (t, w_clock W).
Lemma files_written : forall D W f t g, lockname g = false ->
  dget (w_files (written D W f t)) (child D g) = if ueqb g f then Some (t, w_clock W) else dget (w_files W) (child D g).
Proof.
  intros D W f t g H. unfold written. cbn [put w_files]. rewrite dget_dset, child_ueqb.
  destruct (ueqb g f); [reflexivity|]. apply (files_locked D W f g H).
Qed.
Lemma put_put : forall W p x y, put (put W p x) p y = put W p y.
Proof.
  intros. unfold put. cbn. f_equal. generalize (w_files W). intro d.
  induction d as [|[k v] d IH]; cbn.
  - rewrite ueqb_refl. reflexivity.
  - destruct (ueqb p k) eqn:E; cbn; rewrite E; [reflexivity|]. rewrite IH. reflexivity.
Qed.
Lemma write_ready : forall C W D f t, ready C W D -> usable f -> encodable t ->
  write W (path_join (c_fdir C) f) t = Ok (put W (child D f) (t, w_clock W)).
Proof.
  intros C W D f t H Hf Ht. unfold write. apply encodable_iff, utf8_encode_scalars in Ht. destruct Ht as [b ->].
  rewrite (locate_ready C W D f); auto.
Qed.
Lemma set_open_ready : forall C W D f, ready C W D -> usable f ->
  set_open C W f = (written D W f [], Ok tt).
Proof.
  intros C W D f H Hf. unfold set_open. rewrite (lock_ready C W D f H (proj1 Hf)).
  unfold open_w. rewrite (locate_ready C (locked D W f) D f); [|apply ready_put; exact H|exact Hf]. reflexivity.
Qed.
Lemma set_write_ready : forall C W D f v t, ready C W D -> usable f -> c_ser C v = Ok t -> encodable t ->
  set_write C W f v = (put W (child D f) (t, w_clock W), Ok tt).
Proof. intros. unfold set_write. rewrite H1. rewrite (write_ready C W D f t); auto. Qed.
Lemma set_stat_ready : forall C W D S f t m, ready C W D -> usable f -> dget (w_files W) (child D f) = Some (t, m) ->
  set_stat C W S f = (seen S f m, Ok tt).
Proof. intros. unfold set_stat. rewrite (file_at_ready C W D f), H1; auto. Qed.

Lemma set_ready : forall C W D S k f v t, ready C W D -> qpkey_serialize k = Ok f -> usable f ->
  c_ser C v = Ok t -> encodable t ->
  set C W S k v = (written D W f t, seen (cache S f v) f (w_clock W), Ok tt).
Proof.
  intros C W D S k f v t H Hk Hf Hs Ht. unfold set. rewrite Hk, (set_open_ready C W D f H Hf).
  assert (H' : ready C (written D W f []) D) by (apply ready_put, ready_put; exact H).
  rewrite (set_write_ready C _ D f v t H' Hf Hs Ht).
  assert (E : put (written D W f []) (child D f) (t, w_clock (written D W f [])) = written D W f t)
    by (unfold written; apply put_put).
  rewrite E.
  rewrite (set_stat_ready C _ D _ f t (w_clock W)); [reflexivity| |exact Hf|].
  - apply ready_put, ready_put; exact H.
  - cbn [put w_files locked]. apply dget_dset_same.
Qed.

Definition removed (D : ustr) (W : world) (f : ustr) : world :=
  mkW (ddel (w_files (locked D W f)) (child D f)) (w_dirs W) (w_cwd W) (w_clock W).
Lemma files_removed : forall D W f g, lockname g = false ->
  dget (w_files (removed D W f)) (child D g) = if ueqb g f then None else dget (w_files W) (child D g).
Proof.
  intros D W f g H. unfold removed. cbn [w_files]. rewrite dget_ddel, child_ueqb.
  destruct (ueqb g f); [reflexivity|]. apply files_locked; exact H.
Qed.
Definition forget (S : st) (f : ustr) : st := mkS (s_fmtime S) (ddel (s_storage S) f).
Lemma del_ready : forall C W D S f, ready C W D -> usable f ->
  del C W S f = (match dget (w_files W) (child D f) with Some _ => removed D W f | None => W end, forget S f, Ok tt).
Proof.
  intros C W D S f H Hf. unfold del, isfile. rewrite (file_at_ready C W D f H Hf).
  destruct (dget (w_files W) (child D f)); [|reflexivity].
  rewrite (lock_ready C W D f H (proj1 Hf)). unfold unlink.
  rewrite (locate_ready C (locked D W f) D f); [reflexivity|apply ready_put; exact H|exact Hf].
Qed.
Lemma del_unusable : forall C W D S f, ready C W D -> has_char 47 f = false -> dot f || dotdot f = true ->
  del C W S f = (W, forget S f, Ok tt).
Proof.
  intros C W D S f H Hf Hu. unfold del, isfile, file_at. rewrite (locate_unusable C W D f H Hf Hu). reflexivity.
Qed.

Definition content (C : conf) (t : ustr) : res value := c_deser C (strip (newlines t)).
Lemma read_ready : forall C W D f t m, ready C W D -> usable f -> lockname f = false ->
  dget (w_files W) (child D f) = Some (t, m) -> read_info C W f = (locked D W f, content C t).
Proof.
  intros C W D f t m H Hf Hl Hg. unfold read_info, isfile. rewrite (file_at_ready C W D f H Hf), Hg.
  rewrite (lock_ready C W D f H (proj1 Hf)).
  rewrite (file_at_ready C (locked D W f) D f (ready_put _ _ _ _ _ H) Hf), (files_locked D W f f Hl), Hg. reflexivity.
Qed.

Definition fresh (S : st) (f : ustr) (m : N) : Prop := match dget (s_fmtime S) f with Some t => m <= t | None => False end.
Lemma is_changed_ready : forall C W D S f t m, ready C W D -> usable f ->
  dget (w_files W) (child D f) = Some (t, m) ->
  (fresh S f m /\ is_changed C W S f = (S, Ok false)) \/
  (~ fresh S f m /\ is_changed C W S f = (seen S f m, Ok true)).
Proof.
  intros C W D S f t m H Hf Hg. unfold is_changed, fresh. rewrite (file_at_ready C W D f H Hf), Hg.
  destruct (dget (s_fmtime S) f) as [x|]; [|right; split; auto].
  destruct (x <? m) eqn:E; [right; split; auto; lia|left; split; auto; lia].
Qed.

(** ** keys and their file names *)
Lemma quote_bytes_app : forall a b, quote_bytes (a ++ b) = quote_bytes a ++ quote_bytes b.
Proof. intros. unfold quote_bytes. apply flat_map_app. Qed.
Definition no_hex (c : N) : bool := url_safe c && negb (is_digit c) && negb ((65 <=? c) && (c <=? 70)).
Lemma hexc_hex : forall n c, n < 16 -> no_hex c = true -> hexc n <> c.
Proof.
  intros n c Hn Hc E. subst c. unfold no_hex, hexc, is_digit in Hc. destruct (n <? 10) eqn:E; lia.
Qed.
Lemma quote_bytes_snoc : forall bs r c, forallb (fun b => b <? 256) bs = true -> no_hex c = true ->
  quote_bytes bs = r ++ [c] -> exists bs', bs = bs' ++ [c] /\ quote_bytes bs' = r.
Proof.
  intros bs r c Hb Hc H. destruct (exists_last (l := bs)) as (bs' & b & ->).
  { intro E. subst. destruct r; discriminate. }
  rewrite quote_bytes_app in H. change (quote_bytes [b]) with (quote_byte b ++ []) in H. rewrite app_nil_r in H.
  rewrite forallb_app in Hb. apply andb_true_iff in Hb. destruct Hb as [_ Hb]. cbn in Hb.
  assert (Hb' : b < 256) by lia. unfold quote_byte in H. destruct (url_safe b) eqn:E.
  - apply app_inj_tail in H. destruct H as [Hr Hx]. subst c. eauto.
  - exfalso. destruct (b =? 32).
    + apply app_inj_tail in H. destruct H as [_ <-]. discriminate.
    + change [37; hexc (b / 16); hexc (b mod 16)] with ([37; hexc (b / 16)] ++ [hexc (b mod 16)]) in H.
      rewrite app_assoc in H. apply app_inj_tail in H. destruct H as [_ H].
      exact (hexc_hex _ _ (N.mod_lt b 16 ltac:(lia)) Hc H).
Qed.
Lemma utf8_encode_app : forall a b, utf8_encode (a ++ b) =
  match utf8_encode a, utf8_encode b with Some x, Some y => Some (x ++ y) | _, _ => None end.
Proof.
  induction a as [|c a IH]; intro b; cbn [utf8_encode app].
  - destruct (utf8_encode b); reflexivity.
  - rewrite IH. destruct (utf8_enc1 c); [|reflexivity]. destruct (utf8_encode a); [|reflexivity].
    destruct (utf8_encode b); [|reflexivity]. rewrite app_assoc. reflexivity.
Qed.
Lemma utf8_enc1_last : forall c a r x, utf8_enc1 c = Some a -> a = r ++ [x] -> x < 128 -> r = [] /\ c = x.
Proof.
  intros c a r x H -> Hx. unfold utf8_enc1 in H.
  assert (G : forall l y, Some (l ++ [y]) = Some (r ++ [x]) -> 128 <= y -> False).
  { intros l y G Hy. apply Some_inj in G. apply app_inj_tail in G. destruct G. lia. }
  destruct (c <? 128) eqn:E1.
  { apply Some_inj in H. change [c] with ([] ++ [c]) in H. apply app_inj_tail in H. destruct H. subst. auto. }
  exfalso. destruct (c <? 2048) eqn:E2.
  { refine (G [_] _ H _). lia. }
  destruct ((55296 <=? c) && (c <=? 57343)) eqn:E; [discriminate|].
  destruct (c <? 65536) eqn:E3.
  { refine (G [_; _] _ H _). lia. }
  destruct (c <? 1114112) eqn:E4; [|discriminate]. refine (G [_; _; _] _ H _). lia.
Qed.
Lemma utf8_encode_snoc : forall k bs x, utf8_encode k = Some (bs ++ [x]) -> x < 128 ->
  exists k', k = k' ++ [x] /\ utf8_encode k' = Some bs.
Proof.
  intros k bs x H Hx. destruct (exists_last (l := k)) as (k' & c & ->).
  { intro E. subst. destruct bs; discriminate. }
  rewrite utf8_encode_app in H. destruct (utf8_encode k') as [b'|] eqn:E; [|discriminate].
  cbn [utf8_encode] in H. destruct (utf8_enc1 c) as [a|] eqn:Ea; [|discriminate].
  apply Some_inj in H. rewrite app_nil_r in H.
  destruct (exists_last (l := a)) as (a' & y & ->).
  { intro Z. subst. unfold utf8_enc1 in Ea. destruct (c <? 128); [discriminate|]. destruct (c <? 2048); [discriminate|].
    destruct (_ && _); [discriminate|]. destruct (c <? 65536); [discriminate|]. destruct (c <? 1114112); discriminate. }
  rewrite app_assoc in H. apply app_inj_tail in H. destruct H as [Hb ->].
  destruct (utf8_enc1_last c _ a' x Ea eq_refl Hx) as [-> ->]. rewrite app_nil_r in Hb. subst.
  exists k'. auto.
Qed.
Lemma quote_plus_snoc : forall k r c, quote_plus k = Some (r ++ [c]) -> no_hex c = true ->
  exists k', k = k' ++ [c] /\ quote_plus k' = Some r.
Proof.
  intros k r c H Hc. unfold quote_plus in H. destruct (utf8_encode k) as [bs|] eqn:E; [|discriminate].
  cbn in H. apply Some_inj in H. pose proof (utf8_encode_bytes _ _ E) as Hb.
  destruct (quote_bytes_snoc bs r c Hb Hc H) as (bs' & -> & Hr).
  destruct (utf8_encode_snoc k bs' c E) as (k' & -> & Hk').
  { rewrite forallb_app in Hb. unfold no_hex, url_safe, is_alpha, is_upper, is_lower, is_digit in Hc. lia. }
  exists k'. split; [reflexivity|]. unfold quote_plus. rewrite Hk'. cbn. rewrite Hr. reflexivity.
Qed.
Lemma qp_lock : forall k r, quote_plus k = Some (r ++ u ".lock") -> exists k', k = k' ++ u ".lock".
Proof.
  intros k r H. change (u ".lock") with ([46] ++ [108] ++ [111] ++ [99] ++ [107]) in H. rewrite !app_assoc in H.
  apply quote_plus_snoc in H; [|reflexivity]. destruct H as (k5 & -> & H).
  apply quote_plus_snoc in H; [|reflexivity]. destruct H as (k4 & -> & H).
  apply quote_plus_snoc in H; [|reflexivity]. destruct H as (k3 & -> & H).
  apply quote_plus_snoc in H; [|reflexivity]. destruct H as (k2 & -> & H).
  apply quote_plus_snoc in H; [|reflexivity]. destruct H as (k1 & -> & H).
  exists k1. rewrite <- !app_assoc. reflexivity.
Qed.
Lemma qp_ok : forall k f, qpkey_serialize k = Ok f <-> quote_plus k = Some f.
Proof. intros. unfold qpkey_serialize. destruct (quote_plus k); split; intro; congruence. Qed.
Lemma qp_noslash : forall k f, qpkey_serialize k = Ok f -> has_char 47 f = false.
Proof. intros k f H. apply qp_ok, quote_plus_chars in H. exact (quoted_no 47 f eq_refl H). Qed.
Lemma qp_inj : forall k k' f, qpkey_serialize k = Ok f -> qpkey_serialize k' = Ok f -> k = k'.
Proof. intros k k' f H H'. apply qp_ok, unquote_quote_plus in H, H'. congruence. Qed.
Lemma plain_name : forall k, plain_key k -> exists f, qpkey_serialize k = Ok f /\ usable f /\ lockname f = false.
Proof.
  intros k (He & H0 & H1 & H2 & H3). destruct (qpkey_total k He) as [f Hf]. exists f. split; [exact Hf|].
  pose proof (proj1 (qp_ok k f) Hf) as Hq.
  assert (G : forall g, f = g -> k = unquote_plus g) by (intros g ->; symmetry; apply unquote_quote_plus; exact Hq).
  split; [split; [exact (qp_noslash k f Hf)|split]|].
  - unfold dot. apply orb_false_iff. split; apply not_true_is_false; intro E; apply ueqb_eq in E; apply G in E.
    + apply H0. rewrite E. reflexivity.
    + apply H1. rewrite E. reflexivity.
  - unfold dotdot. apply not_true_is_false. intro E. apply ueqb_eq in E. apply G in E. apply H2. rewrite E. reflexivity.
  - apply not_true_is_false. intro E. apply endswith_iff in E. destruct E as [r ->]. apply H3. exact (qp_lock k r Hq).
Qed.
Lemma own_name_qp : forall k, own_name k -> qpkey_serialize k = Ok k.
Proof.
  intros k H. apply qp_ok. unfold quote_plus.
  assert (G : utf8_encode k = Some k /\ quote_bytes k = k).
  { induction H as [|c k Hc H IH]; [split; reflexivity|]. destruct IH as [IH1 IH2].
    unfold own_char in Hc. split.
    - cbn [utf8_encode]. rewrite IH1. unfold utf8_enc1. replace (c <? 128) with true by lia. reflexivity.
    - change (quote_bytes (c :: k)) with (quote_byte c ++ quote_bytes k). rewrite IH2. unfold quote_byte.
      replace (url_safe c) with true; [reflexivity|].
      unfold url_safe, is_alpha, is_upper, is_lower, is_digit. lia. }
  destruct G as [-> G]. cbn. rewrite G. reflexivity.
Qed.
