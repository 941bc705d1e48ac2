(** More on the file storage: JSON values, clear(), the length of views, the issuer configuration. *)
From Coq Require Import List NArith ZArith Bool String Lia Arith.
From Verif Require Import Base.Ustr Base.UstrLemmas Base.Utf8 Base.Utf8Lemmas Base.Percent Base.PercentLemmas
  Model.Value Model.Float Model.Json Model.Converter Model.FileStore Model.Labeled Model.Config Spec.CodecSpec Spec.JsonSpec Spec.StorageSpec
  Proofs.ValueLemmas Proofs.JsonLemmas Proofs.CodecLemmas Proofs.StorageLemmas Proofs.StorageHistory Proofs.StorageOther Proofs.LabeledLemmas.
Import ListNotations.
Open Scope list_scope.
Open Scope N_scope.

(** ** JSON values come back as they are *)
Definition edges (t : ustr) : Prop :=
  match t with c :: _ => is_space c = false | [] => False end /\ is_space (last t 0) = false.
Lemma strip_edges : forall t, edges t -> strip t = t.
Proof.
  intros t [H1 H2]. unfold strip, strip_by. destruct t as [|c t]; [destruct H1|]. cbn [lstrip_by]. rewrite H1.
  rewrite (app_removelast_last 0 (l := c :: t)) at 1 by discriminate. rewrite rev_app_distr. cbn [rev app lstrip_by]. rewrite H2.
  change (last (c :: t) 0 :: rev (removelast (c :: t))) with ([last (c :: t) 0] ++ rev (removelast (c :: t))).
  rewrite rev_app_distr, rev_involutive. cbn [rev app]. symmetry. apply app_removelast_last. discriminate.
Qed.
Lemma edges_brackets : forall a s b, is_space a = false -> is_space b = false -> edges (a :: s ++ [b]).
Proof. intros a s b Ha Hb. split; [exact Ha|]. change (a :: s ++ [b]) with ((a :: s) ++ [b]). rewrite last_last. exact Hb. Qed.
Lemma digits_edges : forall s, s <> [] -> forallb is_digit s = true -> edges s.
Proof.
  intros s Hn H. assert (D : forall c, is_digit c = true -> is_space c = false) by (intros c Hc; unfold is_digit, is_space in *; lia).
  rewrite forallb_forall in H. destruct s as [|c s]; [congruence|]. split; [apply D, H; left; reflexivity|].
  apply D, H. rewrite (app_removelast_last 0 (l := c :: s)) at 2 by discriminate. apply in_or_app. right. left. reflexivity.
Qed.
Lemma nospace_edges : forall s, s <> [] -> (forall c, In c s -> is_space c = false) -> edges s.
Proof.
  intros s Hn H. destruct s as [|c s]; [congruence|]. split; [apply H; left; reflexivity|].
  apply H. rewrite (app_removelast_last 0 (l := c :: s)) at 2 by discriminate. apply in_or_app. right. left. reflexivity.
Qed.
Lemma jtext_edges : forall v, json_value v -> edges (jtext v).
Proof.
  intros v H. destruct H as [|b|z|s Hs|l Hl|d Hd Hv|q Hq Hr].
  - split; reflexivity.
  - destruct b; split; reflexivity.
  - cbn [jtext]. unfold dec_Z. destruct z as [|p|p].
    + split; reflexivity.
    + apply digits_edges; [apply dec_N_nonempty|apply dec_N_digits].
    + destruct (digits_edges (dec_N (Npos p)) (dec_N_nonempty _) (dec_N_digits _)) as [_ E].
      split; [reflexivity|]. pose proof (dec_N_nonempty (Npos p)) as Hn. destruct (dec_N (Npos p)); [congruence|exact E].
  - apply edges_brackets; reflexivity.
  - apply edges_brackets; reflexivity.
  - apply edges_brackets; reflexivity.
  - rewrite jtext_flt. destruct (ReprLemmas.float_repr_exists q Hq) as [t E]. rewrite E. apply nospace_edges.
    + destruct (repr_head q t E) as (c & r & -> & _). discriminate.
    + intros c H. pose proof (repr_chars q t E c H). unfold is_space. lia.
Qed.
Lemma printable_encodable : forall t, Forall printable t -> encodable t.
Proof.
  intros t H. apply encodable_iff. unfold scalars. apply forallb_forall. intros c Hc. rewrite Forall_forall in H. specialize (H c Hc).
  unfold printable in H. unfold scalar. lia.
Qed.
Lemma printable_no_cr : forall t, Forall printable t -> ~ In 13 t.
Proof. intros t H Hin. rewrite Forall_forall in H. specialize (H 13 Hin). unfold printable in H. lia. Qed.
Theorem json_storable : forall C v, c_ser C = json_conv_serialize -> c_deser C = json_conv_deserialize -> json_value v -> storable C v v.
Proof.
  intros C v H1 H2 Hv. destruct (json_codec v Hv) as (t & E1 & E2 & E3). exists t. rewrite H1, H2. split; [exact E1|].
  split; [apply printable_encodable; exact E2|]. rewrite newlines_none by (apply printable_no_cr; exact E2).
  unfold json_dumps in E1. destruct (jerr v); [discriminate|]. injection E1 as <-. rewrite strip_edges by (apply jtext_edges; exact Hv). exact E3.
Qed.
Theorem json_restart : forall C v, c_ser C = json_conv_serialize -> c_deser C = json_conv_deserialize -> json_value v ->
  forall D W S k, placed C W D -> flat W D -> plain_key k ->
  exists W' S', set C W S k v = (W', S', Ok tt) /\ reading C W' k = Ok v.
Proof.
  intros C v H1 H2 Hv D W S k Hp Hf Hk. destruct (json_storable C v H1 H2 Hv) as (t & E1 & E2 & E3).
  destruct (restart_total C D W S k v t Hp Hf Hk E1 E2) as (W' & S' & E & R & _). exists W', S'. split; [exact E|]. congruence.
Qed.
Theorem text_storable : forall C s, c_ser C = passthru_serialize -> c_deser C = passthru_deserialize -> encodable s ->
  storable C (VStr s) (VStr (strip (newlines s))).
Proof. intros C s H1 H2 Hs. exists s. rewrite H1, H2. split; [reflexivity|]. split; [exact Hs|reflexivity]. Qed.

(** ** clear() replaces every file by a lock file *)
Lemma del_other : forall C D W S f g, ready C W D -> usable f -> g <> f ->
  dget (w_files W) (child D g) <> None -> dget (w_files (fst (fst (del C W S f)))) (child D g) <> None.
Proof.
  intros C D W S f g HR Hu Hg H. rewrite (del_ready C W D S f HR Hu). cbn [fst].
  destruct (dget (w_files W) (child D f)); [|exact H]. unfold removed, locked, put. cbn [w_files]. rewrite dget_ddel, child_ueqb.
  replace (ueqb g f) with false by (symmetry; apply not_true_is_false; rewrite ueqb_eq; exact Hg).
  rewrite dget_dset. destruct (ueqb _ _); [discriminate|exact H].
Qed.
Lemma del_leaves : forall C D W S f, ready C W D -> usable f -> dget (w_files W) (child D f) <> None ->
  dget (w_files (fst (fst (del C W S f)))) (child D (f ++ u ".lock")) <> None.
Proof.
  intros C D W S f HR Hu H. rewrite (del_ready C W D S f HR Hu). cbn [fst].
  destruct (dget (w_files W) (child D f)); [|congruence]. unfold removed, locked, put. cbn [w_files]. rewrite dget_ddel, child_ueqb.
  replace (ueqb (f ++ u ".lock") f) with false.
  2:{ symmetry. apply not_true_is_false. rewrite ueqb_eq. intro E. apply (f_equal (@List.length N)) in E. rewrite app_length in E. change (List.length (u ".lock")) with 5%nat in E. lia. }
  rewrite dget_dset_same. discriminate.
Qed.
Lemma del_ok : forall C D W S f, ready C W D -> has_char 47 f = false ->
  exists W' S', del C W S f = (W', S', Ok tt) /\ ready C W' D.
Proof.
  intros C D W S f HR Hf. destruct (usable_dec f Hf) as [Hu|Hu].
  - rewrite (del_ready C W D S f HR Hu). eexists _, _. split; [reflexivity|].
    destruct (dget _ _); [|exact HR]. eapply ready_same; [exact HR|reflexivity|reflexivity].
  - rewrite (del_unusable C W D S f HR Hf Hu). eauto.
Qed.
Lemma del_all_keeps : forall C D l W S g, ready C W D -> Forall (fun f => has_char 47 f = false) l -> ~ In g l ->
  dget (w_files W) (child D g) <> None ->
  exists W' S', del_all C W S l = (W', S', Ok tt) /\ ready C W' D /\ dget (w_files W') (child D g) <> None.
Proof.
  induction l as [|f l IH]; intros W S g HR Hl Hg H; cbn [del_all]; [eauto|]. apply Forall_cons_iff in Hl. destruct Hl as [Hf Hl].
  assert (H' : dget (w_files (fst (fst (del C W S f)))) (child D g) <> None).
  { destruct (usable_dec f Hf) as [Hu|Hu]; [apply del_other with (D := D); auto; intros ->; apply Hg; left; reflexivity|].
    rewrite (del_unusable C W D S f HR Hf Hu). exact H. }
  destruct (del_ok C D W S f HR Hf) as (W1 & S1 & E & R1). rewrite E in *. apply IH; auto. intro; apply Hg; right; assumption.
Qed.
Lemma del_all_lock : forall C D l W S f, ready C W D -> Forall (fun f => has_char 47 f = false) l -> NoDup l ->
  In f l -> usable f -> ~ In (f ++ u ".lock") l -> dget (w_files W) (child D f) <> None ->
  exists W' S', del_all C W S l = (W', S', Ok tt) /\ ready C W' D /\ dget (w_files W') (child D (f ++ u ".lock")) <> None.
Proof.
  induction l as [|x l IH]; intros W S f HR Hl Hn Hf Hu Hk H; [destruct Hf|]. cbn [del_all].
  apply Forall_cons_iff in Hl. destruct Hl as [Hx Hl]. inversion Hn as [|? ? Hx' Hn']; subst.
  destruct (del_ok C D W S x HR Hx) as (W1 & S1 & E & R1). destruct (ueq_dec x f) as [->|Hne].
  - pose proof (del_leaves C D W S f HR Hu H) as H'. rewrite E in *.
    apply (del_all_keeps C D l W1 S1 _ R1 Hl); auto. intro; apply Hk; right; assumption.
  - destruct Hf as [->|Hf]; [congruence|].
    assert (H' : dget (w_files (fst (fst (del C W S x)))) (child D f) <> None).
    { destruct (usable_dec x Hx) as [Hux|Hux]; [apply del_other with (D := D); auto|].
      rewrite (del_unusable C W D S x HR Hx Hux). exact H. }
    rewrite E in *. apply IH; auto. intro; apply Hk; right; assumption.
Qed.
Lemma longest : forall l : list ustr, l <> [] -> exists f, In f l /\ forall g, In g l -> (List.length g <= List.length f)%nat.
Proof.
  induction l as [|x l IH]; [congruence|]. intros _. destruct l as [|y l].
  - exists x. split; [left; reflexivity|]. intros g [->|[]]. lia.
  - destruct IH as (f & Hf & Hm); [discriminate|]. destruct (Nat.le_gt_cases (List.length x) (List.length f)).
    + exists f. split; [right; exact Hf|]. intros g [->|Hg]; auto.
    + exists x. split; [left; reflexivity|]. intros g [->|Hg]; [lia|]. specialize (Hm g Hg). lia.
Qed.
Lemma noslash : forall f, ~ In 47 f -> has_char 47 f = false.
Proof. intros f H. apply not_true_is_false. rewrite has_char_In. exact H. Qed.
Theorem clear_longer : forall C D W S n, placed C W D -> flat W D -> NoDup (map fst (w_files W)) -> long_name W D n -> (3 <= n)%nat ->
  exists W' S', clear C W S = (W', S', Ok tt) /\ placed C W' D /\ flat W' D /\ long_name W' D (n + 5).
Proof.
  intros C D W S n H1 H2 Hnd (f0 & Hs0 & Hf0 & Hlen) Hn. assert (HR : ready C W D) by (split; assumption).
  unfold clear. rewrite (listdir_ready C W D HR).
  assert (Hin : forall f, In f (file_names W D) <-> has_char 47 f = false /\ dget (w_files W) (child D f) <> None) by (intro; apply file_names_in).
  assert (Hin0 : In f0 (file_names W D)) by (apply Hin; split; [apply noslash; exact Hs0|exact Hf0]).
  destruct (longest (file_names W D)) as (f & Hf & Hmax); [intro E; rewrite E in Hin0; destruct Hin0|].
  pose proof (Hmax f0 Hin0) as Hl. pose proof (proj1 (Hin f) Hf) as [Hfs Hfx].
  assert (Hu : usable f).
  { destruct (usable_dec f Hfs) as [Hu|Hu]; [exact Hu|]. exfalso. unfold dot, dotdot in Hu. rewrite !orb_true_iff, !ueqb_eq in Hu.
    destruct Hu as [[-> | ->]| ->]; cbn [List.length] in Hl; lia. }
  destruct (del_all_lock C D (file_names W D) W S f HR) as (W' & S' & E & [R1 R2] & Hk); auto.
  - apply Forall_forall. intros g Hg. apply Hin in Hg. tauto.
  - apply file_names_nodup. exact Hnd.
  - intro Hc. apply Hmax in Hc. rewrite app_length in Hc. change (List.length (u ".lock")) with 5%nat in Hc. lia.
  - exists W', S'. split; [exact E|]. split; [exact R1|]. split; [exact R2|]. exists (f ++ u ".lock"). split.
    + rewrite <- has_char_In. rewrite (lock_noslash f Hfs). discriminate.
    + split; [exact Hk|]. rewrite app_length. change (List.length (u ".lock")) with 5%nat. lia.
Qed.

(** ** the length of a view *)
Lemma own_prefix : forall L k f, own_name L -> qpkey_serialize k = Ok f -> startswith L f = startswith L k.
Proof.
  intros L k f H Hq. apply qp_ok in Hq. revert k f Hq. induction H as [|c L Hc H IH]; intros k f Hq.
  - destruct k, f; reflexivity.
  - destruct k as [|d k].
    + cbn in Hq. injection Hq as <-. reflexivity.
    + unfold quote_plus in Hq, IH. cbn [utf8_encode] in Hq. destruct (utf8_enc1 d) as [a|] eqn:Ea; [|discriminate].
      destruct (utf8_encode k) as [bs|] eqn:Eb; [|discriminate]. cbn [option_map] in Hq. rewrite quote_bytes_app in Hq.
      assert (Hf : f = quote_bytes a ++ quote_bytes bs) by congruence. clear Hq.
      specialize (IH k (quote_bytes bs)). rewrite Eb in IH. specialize (IH eq_refl).
      assert (Hown : forall x, own_char x <-> url_safe x = true).
      { intro x. unfold own_char, url_safe, is_alpha, is_upper, is_lower, is_digit. lia. }
      destruct (N.eq_dec c d) as [->|Hne].
      * assert (a = [d]) as ->.
        { unfold utf8_enc1 in Ea. replace (d <? 128) with true in Ea by (unfold own_char in Hc; lia). congruence. }
        change (quote_bytes [d]) with (quote_byte d ++ []) in Hf. rewrite app_nil_r in Hf. unfold quote_byte in Hf.
        rewrite (proj1 (Hown d) Hc) in Hf. subst f. cbn [app startswith]. rewrite N.eqb_refl. exact IH.
      * assert (Hk : startswith (c :: L) (d :: k) = false).
        { cbn [startswith]. replace (c =? d) with false by lia. reflexivity. }
        rewrite Hk. destruct a as [|b a].
        { exfalso. unfold utf8_enc1 in Ea. destruct (d <? 128); [discriminate|]. destruct (d <? 2048); [discriminate|].
          destruct (_ && _); [discriminate|]. destruct (d <? 65536); [discriminate|]. destruct (d <? 1114112); discriminate. }
        change (quote_bytes (b :: a)) with (quote_byte b ++ quote_bytes a) in Hf.
        assert (Hb : b <> c).
        { intros ->. unfold utf8_enc1 in Ea. unfold own_char in Hc.
          destruct (d <? 128) eqn:E1; [congruence|]. destruct (d <? 2048); [apply Some_inj, (f_equal (hd 0)) in Ea; cbn [hd] in Ea; lia|].
          destruct (_ && _); [discriminate|]. destruct (d <? 65536); [apply Some_inj, (f_equal (hd 0)) in Ea; cbn [hd] in Ea; lia|].
          destruct (d <? 1114112); [apply Some_inj, (f_equal (hd 0)) in Ea; cbn [hd] in Ea; lia|discriminate]. }
        subst f. unfold quote_byte. destruct (url_safe b) eqn:Eu.
        -- cbn [app startswith]. replace (c =? b) with false by lia. reflexivity.
        -- assert (c <> 43 /\ c <> 37) by (unfold own_char in Hc; lia).
           destruct (b =? 32); cbn [app startswith]; [replace (c =? 43) with false by lia|replace (c =? 37) with false by lia]; reflexivity.
Qed.
Lemma v_len_answer : forall Q C D W P G L, inv Q C D W P G -> own_name L ->
  exists l, v_len C L W = Ok (List.length l) /\ NoDup l /\ forall k, In k l <-> (startswith L k = true /\ G k <> None).
Proof.
  intros Q C D W P G L H HL. pose proof (i_ready _ _ _ _ _ _ H) as HR. unfold v_len. rewrite (listdir_ready C W D HR).
  cbn [bind]. match goal with |- context [filter ?x ?y] => set (keep := filter x y) end.
  assert (Hkeep : forall f, In f keep <-> startswith L f = true /\ has_char 47 f = false /\ lockname f = false /\ dget (w_files W) (child D f) <> None).
  { intro f. unfold keep. rewrite filter_In, file_names_in, !andb_true_iff, negb_true_iff. split.
    - intros [[H1 H2] [[H0 H3] H4]]. rewrite (lock_path C W D f HR H1) in H4. auto.
    - intros (H0 & H1 & H2 & H3). split; [auto|]. rewrite (lock_path C W D f HR H1). split; [|exact H2]. split; [exact H0|].
      destruct (file_ghost _ _ _ _ _ _ f H H1 H2 H3) as (k & Hk & Hq & _). destruct (plain_name k Hk) as (f' & Hf' & Hu & _).
      assert (f' = f) by congruence. subst f'. unfold isfile. rewrite (file_at_ready C W D f HR Hu).
      destruct (dget _ _); [reflexivity|congruence]. }
  assert (Hnd : NoDup keep) by (apply NoDup_filter, file_names_nodup, (i_nodup _ _ _ _ _ _ H)).
  exists (map qpkey_deserialize keep). rewrite map_length. split; [reflexivity|].
  assert (Hdec : forall f, In f keep -> exists k, plain_key k /\ qpkey_serialize k = Ok f /\ qpkey_deserialize f = k /\ startswith L k = true /\ G k <> None).
  { intros f Hf. apply Hkeep in Hf. destruct Hf as (H0 & H1 & H2 & H3).
    destruct (file_ghost _ _ _ _ _ _ f H H1 H2 H3) as (k & Hk & Hq & Hn). exists k. split; [exact Hk|]. split; [exact Hq|].
    split; [apply qp_ok, unquote_quote_plus in Hq; exact Hq|]. split; [|exact Hn]. rewrite <- (own_prefix L k f HL Hq). exact H0. }
  split.
  - clear Hkeep. induction keep as [|f l IH]; cbn [map]; [constructor|]. inversion Hnd as [|? ? Hf Hl]; subst.
    constructor; [|apply IH; auto; intros g Hg; apply Hdec; right; exact Hg].
    intro Hc. apply in_map_iff in Hc. destruct Hc as (g & Heq & Hg).
    destruct (Hdec f ltac:(left; reflexivity)) as (k & _ & Hq & Hd & _).
    destruct (Hdec g ltac:(right; exact Hg)) as (k' & _ & Hq' & Hd' & _).
    assert (k = k') by congruence. subst k'. assert (f = g) by congruence. subst g. contradiction.
  - intro k. rewrite in_map_iff. split.
    + intros (f & <- & Hf). destruct (Hdec f Hf) as (k & _ & _ & -> & Hn). exact Hn.
    + intros [Hs Hn]. pose proof (i_plain _ _ _ _ _ _ H k Hn) as Hk. destruct (plain_name k Hk) as (f & Hq & Hu & Hl).
      exists f. split; [apply qp_ok, unquote_quote_plus in Hq; exact Hq|]. apply Hkeep.
      split; [rewrite (own_prefix L k f HL Hq); exact Hs|]. split; [destruct Hu; assumption|].
      split; [exact Hl|]. pose proof (i_key _ _ _ _ _ _ H k f Hk Hq) as Ho. destruct (G k) as [[w v]|]; [|congruence].
      destruct Ho as (t & m & x & _ & _ & _ & A & _). congruence.
Qed.
Theorem view_length : forall C lab D W i h W' P' rs W'' S'' r,
  placed C W D -> flat W D -> no_files W D -> NoDup (map fst (w_files W)) ->
  (forall j, j <> i -> apart (lab i) (lab j)) -> own_name (lab i) ->
  Forall (fun e => vlegal C (lab (fst e)) (snd e)) h ->
  vrun C lab W (fun _ => s_new) h = (W', P', rs) -> vexec C (lab i) W' (P' i) VLen = (W'', S'', r) ->
  exists l, r = RLen (Ok (List.length l)) /\ NoDup l /\ forall k, In k l <-> vlatest i k h <> None.
Proof.
  intros C lab D W i h W' P' rs W'' S'' r H1 H2 H3 H4 Hap Hown Hh Hrun Hex.
  destruct (vrun_down _ _ _ _ _ _ _ _ Hrun) as [rs' Hr].
  assert (Ha : Forall (fun e => legal C (snd e)) (downs lab h)).
  { apply Forall_forall. intros e He. apply in_map_iff in He. destruct He as ([j x] & <- & He). cbn [snd].
    rewrite Forall_forall in Hh. apply down_legal. exact (Hh _ He). }
  destruct (run_step (fun _ => True) C D (downs lab h) W _ _ (inv_start C D W H1 H2 H3 H4) Ha) as (W1 & P1 & rs1 & E1 & I1 & _).
  rewrite E1 in Hr. injection Hr as -> -> ->. cbn [vexec] in Hex. injection Hex as _ _ <-.
  destruct (v_len_answer _ C D (tick W') _ _ (lab i) (inv_tick _ _ _ _ _ i I1) Hown) as (l & -> & L1 & L2).
  exists (strip_label (lab i) l). assert (Hsw : forall k, In k l -> startswith (lab i) k = true) by (intros k Hk; apply L2 in Hk; tauto).
  split; [|split; [apply strip_nodup; exact L1|]].
  - f_equal. f_equal. unfold strip_label. rewrite map_length. f_equal. clear - Hsw. induction l as [|x l IH]; [reflexivity|].
    cbn [filter]. rewrite (Hsw x) by (left; reflexivity). f_equal. apply IH. intros. apply Hsw. right. assumption.
  - intro k. rewrite in_strip, L2. pose proof (latest_down lab i k h Hap None) as G. cbn [option_map] in G. rewrite G.
    unfold vlatest. rewrite startswith_app. destruct (fold_left _ h None); cbn; intuition congruence.
Qed.

(** ** add_base_path and add_issuer *)
Theorem relative_path : forall section a part conf p, section <> [] ->
  dget conf section = Some (VDict part) -> dget part a = Some (VStr p) -> p <> [] -> ~ (exists r, p = u "/" ++ r) ->
  add_base_path (VDict [(section, VList [VStr a])]) (VDict conf) = Err ENameError.
Proof.
  intros section a part conf p Hs H1 H2 H3 H4. cbn [add_base_path].
  replace (ueqb section []) with false by (symmetry; apply not_true_is_false; rewrite ueqb_eq; exact Hs).
  cbn [lookup]. rewrite H1. cbn [bind].
  replace (truthy (VDict part)) with true by (destruct part; [discriminate|reflexivity]). cbn [bind lookup]. rewrite H2. cbn [bind].
  replace (truthy (VStr p)) with true by (destruct p; [congruence|reflexivity]). unfold abs_path.
  replace (startswith (u "/") p) with false; [reflexivity|]. symmetry. apply not_true_is_false. rewrite startswith_iff. exact H4.
Qed.
Theorem issuer_conf : forall conf issuer q, quote_plus issuer = Some q ->
  Forall (fun kv => fst kv = u "abstract_storage_cls" \/ exists d, snd kv = VDict d) conf ->
  exists r, add_issuer conf issuer = Ok r /\ map fst r = map fst conf /\
    forall k v, In (k, v) r -> exists v0, In (k, v0) conf /\
      (k = u "abstract_storage_cls" -> v = v0) /\
      (k <> u "abstract_storage_cls" -> exists d0 d, v0 = VDict d0 /\ v = VDict d /\ dget d (u "issuer") = Some (VStr q) /\
        forall x, x <> u "issuer" -> dget d x = dget d0 x).
Proof.
  intros conf issuer q Hq. induction 1 as [|[k v] conf Hv H IH]; cbn [add_issuer]; [exists []; split; [reflexivity|split; [reflexivity|intros ? ? []]]|].
  destruct IH as (r & -> & Hm & Hr). cbn [fst snd] in Hv. destruct (ueqb k (u "abstract_storage_cls")) eqn:E.
  - apply ueqb_eq in E. subst k. eexists. split; [reflexivity|]. cbn [map fst]. split; [f_equal; exact Hm|].
    intros k' v' [X|X].
    + injection X as <- <-. exists v. split; [left; reflexivity|]. split; [reflexivity|congruence].
    + destruct (Hr _ _ X) as (v0 & A & B). exists v0. split; [right; exact A|exact B].
  - assert (Hk : k <> u "abstract_storage_cls") by (intro X; apply ueqb_eq in X; congruence).
    destruct Hv as [Hv|[d ->]]; [contradiction|]. rewrite Hq. eexists. split; [reflexivity|]. cbn [map fst]. split; [f_equal; exact Hm|].
    intros k' v' [X|X].
    + injection X as <- <-. exists (VDict d). split; [left; reflexivity|]. split; [congruence|]. intros _.
      exists d, (dset d (u "issuer") (VStr q)). split; [reflexivity|]. split; [reflexivity|]. split; [apply dget_dset_same|].
      intros x Hx. apply dget_dset_other. congruence.
    + destruct (Hr _ _ X) as (v0 & A & B). exists v0. split; [right; exact A|exact B].
Qed.
